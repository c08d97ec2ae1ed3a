From Coq Require Import ZArith List Bool Lia.
From Verif Require Import Base Util Combinators Variadic Parsers Deep SpecDeep Proofs_Deep Lazy SpecLazy.
Import ListNotations.
Open Scope Z_scope.

Definition strip (c : result) : outcome :=
  match c with
  | CAccept r s p => Accept r (force s) (force p)
  | CReject m p => Reject m (force p)
  | CIllformed => Illformed
  | COutOfFuel => OutOfFuel
  end.

Lemma stands_force : forall A (x : lazy A), stands_for x (force x).
Proof. intros A [a|a]; [left | right]; reflexivity. Qed.

Lemma stands_inv : forall A (x : lazy A) a, stands_for x a -> force x = a.
Proof. intros A x a [-> | ->]; reflexivity. Qed.

Lemma means_strip : forall c, means c (strip c).
Proof. destruct c; constructor; apply stands_force. Qed.

Lemma means_inv : forall c o, means c o -> strip c = o.
Proof.
  intros c o H. destruct H; simpl;
    repeat match goal with H : stands_for _ _ |- _ => rewrite (stands_inv _ _ _ H); clear H end; reflexivity.
Qed.

Lemma strip_evaluated : forall o, strip (evaluated o) = o.
Proof. destruct o; reflexivity. Qed.

Lemma strip_type : forall c, strip (type c) = strip c.
Proof. destruct c; reflexivity. Qed.

Lemma type_evaluated : forall o, type (evaluated o) = evaluated o.
Proof. destruct o; reflexivity. Qed.

Definition near (strict : bool) (c : result) (o : outcome) : Prop :=
  strip c = o \/ (strict = false /\ c = CIllformed).

Lemma near_evaluated : forall st o, near st (evaluated o) o.
Proof. intros. left. apply strip_evaluated. Qed.

Definition simn (P : lparser) (p : pfun) : Prop := forall s a, P s (Now a) = evaluated (p s a).
Definition simg (st : bool) (P : lparser) (p : pfun) : Prop := forall s a, near st (P s (Later a)) (p s a).
Definition sim (st : bool) (P : lparser) (p : pfun) : Prop := simn P p /\ simg st P p.

Ltac case_pos :=
  match goal with
  | |- context [pos_equal_to ?x ?y] => destruct (pos_equal_to x y)
  | |- context [pos_less ?x ?y] => destruct (pos_less x y)
  end.

Ltac crush :=
  simpl in *; subst; simpl in *;
  repeat (match goal with
          | |- context [match ?x with _ => _ end] => destruct x eqn:?; simpl in *; subst; simpl in *
          end);
  try reflexivity; try congruence; auto.

(** one step of the proof of a combinator applying [P] at the given position *)
Ltac step N L :=
  split; intros s a;
  [ try rewrite N | destruct (L s a) as [E|[? E]]; [rewrite <- E | rewrite E; right; auto] ].

Section Combinators.
Variable st : bool.

Lemma sim_return : forall v, sim st (l_return v) (return_ v).
Proof. intros v. split; intros s a; [reflexivity | left; reflexivity]. Qed.

Lemma sim_fail : forall m, sim st (l_fail m) (fail m).
Proof. intros v. split; intros s a; [reflexivity | left; reflexivity]. Qed.

Lemma sim_one_char : sim st l_one_char one_char.
Proof.
  split; intros [|c s] a; [reflexivity | reflexivity | left; reflexivity | left; reflexivity].
Qed.

Lemma sim_empty : forall r, sim st (l_empty r) (empty r).
Proof. intros r. split; intros [|c s] a; [reflexivity | reflexivity | left; reflexivity | left; reflexivity]. Qed.

Lemma sim_accept_when : forall P p pr m, sim st P p -> sim st (l_accept_when P pr m) (accept_when p pr m).
Proof.
  intros P p pr m [N L]. unfold l_accept_when, accept_when. step N L.
  - destruct (p s a); simpl; crush.
  - destruct (P s (Later a)); left; crush.
Qed.

Lemma sim_change_error_message : forall P p m,
  sim st P p -> sim st (l_change_error_message P m) (change_error_message p m).
Proof.
  intros P p m [N L]. unfold l_change_error_message, change_error_message. step N L.
  - destruct (p s a); reflexivity.
  - destruct (P s (Later a)); left; reflexivity.
Qed.

Lemma sim_transform : forall P p f, sim st P p -> sim st (l_transform P f) (transform p f).
Proof.
  intros P p f [N L]. unfold l_transform, transform. step N L.
  - destruct (p s a); simpl; crush.
  - destruct (P s (Later a)); left; crush.
Qed.

Lemma sim_transform_error : forall P p f, sim st P p -> sim st (l_transform_error P f) (transform_error p f).
Proof.
  intros P p f [N L]. unfold l_transform_error, transform_error. step N L.
  - destruct (p s a); reflexivity.
  - destruct (P s (Later a)); left; try reflexivity. apply strip_evaluated.
Qed.

Lemma sim_transform_error_message : forall P p f,
  sim st P p -> sim st (l_transform_error_message P f) (transform_error_message p f).
Proof.
  intros P p f [N L]. unfold l_transform_error_message, transform_error_message. step N L.
  - destruct (p s a); simpl; crush.
  - destruct (P s (Later a)); left; crush.
Qed.

Lemma sim_always : forall P p v, sim st P p -> sim st (l_always P v) (always p v).
Proof.
  intros P p v [N L]. unfold l_always, always. step N L.
  - destruct (p s a); reflexivity.
  - destruct (P s (Later a)); left; reflexivity.
Qed.

Lemma sim_look_ahead : forall P p, sim st P p -> sim st (l_look_ahead P) (look_ahead p).
Proof.
  intros P p [N L]. unfold l_look_ahead, look_ahead. step N L.
  - destruct (p s a); reflexivity.
  - destruct (P s (Later a)); left; reflexivity.
Qed.

Lemma sim_optional : forall P p v, sim st P p -> sim st (l_optional P v) (optional p v).
Proof.
  intros P p v [N L]. unfold l_optional, optional. step N L.
  - destruct (p s a); reflexivity.
  - destruct (P s (Later a)); left; reflexivity.
Qed.

Lemma sim_except : forall P p v m, sim st P p -> sim st (l_except P v m) (except p v m).
Proof.
  intros P p v m [N L]. unfold l_except, except. step N L.
  - destruct (p s a); reflexivity.
  - destruct (P s (Later a)); left; reflexivity.
Qed.

Lemma sim_if : forall P p v m, sim st P p -> sim st (l_if P v m) (if_ p v m).
Proof.
  intros P p v m [N L]. unfold l_if, if_. step N L.
  - destruct (p s a); reflexivity.
  - destruct (P s (Later a)); left; reflexivity.
Qed.

Lemma simn_fail_at_first_char_expected : forall P p,
  simn P p -> simn (l_fail_at_first_char_expected P) (fail_at_first_char_expected p).
Proof.
  intros P p N s a. unfold l_fail_at_first_char_expected, fail_at_first_char_expected. rewrite N.
  destruct (p s a); simpl; try reflexivity. case_pos; reflexivity.
Qed.

Lemma sim_fail_at_first_char_expected : forall P p, st = false ->
  sim st P p -> sim st (l_fail_at_first_char_expected P) (fail_at_first_char_expected p).
Proof.
  intros P p F [N L]. split; [apply simn_fail_at_first_char_expected; assumption|].
  intros s a. unfold l_fail_at_first_char_expected, fail_at_first_char_expected.
  destruct (L s a) as [E|[? E]]; [rewrite <- E | rewrite E; right; auto].
  destruct (P s (Later a)); simpl; [left; reflexivity | right; auto | left; reflexivity | left; reflexivity].
Qed.

Lemma sim_lit_c : forall c, sim st (l_lit_c c) (lit_c c).
Proof. intros c. apply sim_accept_when. apply sim_change_error_message. apply sim_one_char. Qed.

Lemma sim_keyword : forall kw r, sim st (l_keyword kw r) (keyword kw r).
Proof.
  intros kw r. induction kw as [|c kw [N L]]; [apply sim_return|].
  destruct (sim_lit_c c) as [N1 L1]. cbn [l_keyword keyword]. step N1 L1.
  - destruct (lit_c c s a); simpl; try reflexivity. apply N.
  - destruct (l_lit_c c s (Later a)); simpl; try (left; reflexivity). rewrite N. apply near_evaluated.
Qed.

(** *** Folds *)

Lemma simn_foldl : forall n P p f, simn P p ->
  forall v, simn (l_foldl n P v f) (foldl n p v f).
Proof.
  intros n P p f N. induction n as [|n IH]; intros v s a; [reflexivity|].
  cbn [l_foldl foldl]. rewrite N. destruct (p s a); simpl; try reflexivity.
  - destruct v; [apply IH | reflexivity].
  - destruct v; reflexivity.
Qed.

Lemma sim_foldl : forall n P p v f, sim st P p -> sim st (l_foldl n P v f) (foldl n p v f).
Proof.
  intros n P p v f [N L]. split; [apply simn_foldl; assumption|]. intros s a.
  destruct n as [|n]; [left; reflexivity|]. cbn [l_foldl foldl].
  destruct (L s a) as [E|[? E]]; [rewrite <- E | rewrite E; right; auto].
  destruct (P s (Later a)); simpl; try (left; reflexivity).
  - destruct v; [rewrite simn_foldl with (p := p) by assumption; apply near_evaluated | left; reflexivity].
  - destruct v; left; reflexivity.
Qed.

Lemma simn_foldl_reject_incomplete : forall n P p f, simn P p ->
  forall v, simn (l_foldl_reject_incomplete n P v f) (foldl_reject_incomplete n p v f).
Proof.
  intros n P p f N. induction n as [|n IH]; intros v s a; [reflexivity|].
  cbn [l_foldl_reject_incomplete foldl_reject_incomplete]. rewrite N. destruct (p s a); simpl; try reflexivity.
  - destruct v; [apply IH | reflexivity].
  - case_pos; [destruct v|]; reflexivity.
Qed.

Lemma sim_foldl_reject_incomplete : forall n P p v f,
  sim st P p -> sim st (l_foldl_reject_incomplete n P v f) (foldl_reject_incomplete n p v f).
Proof.
  intros n P p v f [N L]. split; [apply simn_foldl_reject_incomplete; assumption|]. intros s a.
  destruct n as [|n]; [left; reflexivity|]. cbn [l_foldl_reject_incomplete foldl_reject_incomplete].
  destruct (L s a) as [E|[? E]]; [rewrite <- E | rewrite E; right; auto].
  destruct (P s (Later a)); simpl; try (left; reflexivity).
  - destruct v; [rewrite simn_foldl_reject_incomplete with (p := p) by assumption; apply near_evaluated | left; reflexivity].
  - case_pos; [destruct v|]; left; reflexivity.
Qed.

(** [P] first, then another parser at the same position *)
Lemma sim_guard : forall P p Q q, sim st P p -> sim st Q q ->
  sim st (fun s a => match P s a with CAccept _ _ _ => Q s a | c => c end)
    (fun s a => match p s a with Accept _ _ _ => q s a | o => o end).
Proof.
  intros P p Q q [N L] [N' L']. step N L.
  - destruct (p s a); simpl; try reflexivity. apply N'.
  - destruct (P s (Later a)); simpl; try (left; reflexivity). apply L'.
Qed.

(** [P] first, then another parser where it stopped *)
Lemma sim_then : forall P p (Q : value -> lparser) (q : value -> pfun),
  sim st P p -> (forall v, simn (Q v) (q v)) ->
  sim st (fun s a => match P s a with CAccept r s' a' => Q r (force s') (Now (force a')) | c => c end)
    (fun s a => match p s a with Accept r s' a' => q r s' a' | o => o end).
Proof.
  intros P p Q q [N L] N'. step N L.
  - destruct (p s a); simpl; try reflexivity. apply N'.
  - destruct (P s (Later a)); simpl; try (left; reflexivity). rewrite N'. apply near_evaluated.
Qed.

Lemma sim_foldl1 : forall n P p v f, sim st P p -> sim st (l_foldl1 n P v f) (foldl1 n p v f).
Proof. intros. apply sim_guard; [assumption | apply sim_foldl; assumption]. Qed.

Lemma sim_foldl_reject_incomplete1 : forall n P p v f,
  sim st P p -> sim st (l_foldl_reject_incomplete1 n P v f) (foldl_reject_incomplete1 n p v f).
Proof. intros. apply sim_guard; [assumption | apply sim_foldl_reject_incomplete; assumption]. Qed.

Lemma sim_foldl_start_with_parser : forall n P p Q q f, simn P p -> sim st Q q ->
  sim st (l_foldl_start_with_parser n P Q f) (foldl_start_with_parser n p q f).
Proof.
  intros n P p Q q f N S.
  apply (sim_then Q q (fun v => l_foldl n P (type_of v) f) (fun v => foldl n p (type_of v) f) S).
  intros v. apply simn_foldl. assumption.
Qed.

Lemma sim_foldl_reject_incomplete_start_with_parser : forall n P p Q q f, simn P p -> sim st Q q ->
  sim st (l_foldl_reject_incomplete_start_with_parser n P Q f) (foldl_reject_incomplete_start_with_parser n p q f).
Proof.
  intros n P p Q q f N S.
  apply (sim_then Q q (fun v => l_foldl_reject_incomplete n P (type_of v) f)
           (fun v => foldl_reject_incomplete n p (type_of v) f) S).
  intros v. apply simn_foldl_reject_incomplete. assumption.
Qed.

Lemma simn_foldr_start_with_parser : forall n P p Q q f, simn P p -> simn Q q ->
  simn (l_foldr_start_with_parser n P Q f) (foldr_start_with_parser n p q f).
Proof.
  intros n P p Q q f N N'. induction n as [|n IH]; intros s a; [reflexivity|].
  cbn [l_foldr_start_with_parser foldr_start_with_parser]. rewrite N.
  destruct (p s a); simpl; try reflexivity; [|apply N'].
  rewrite IH. match goal with |- context [foldr_start_with_parser n p q f ?x ?y] => destruct (foldr_start_with_parser n p q f x y) end; simpl; try reflexivity.
  destruct (f r0 r); reflexivity.
Qed.

Lemma sim_foldr_start_with_parser : forall n P p Q q f, sim st P p -> sim st Q q ->
  sim st (l_foldr_start_with_parser n P Q f) (foldr_start_with_parser n p q f).
Proof.
  intros n P p Q q f [N L] [N' L']. split; [apply simn_foldr_start_with_parser; assumption|]. intros s a.
  destruct n as [|n]; [left; reflexivity|]. cbn [l_foldr_start_with_parser foldr_start_with_parser].
  destruct (L s a) as [E|[? E]]; [rewrite <- E | rewrite E; right; auto].
  destruct (P s (Later a)); simpl; try (left; reflexivity); [|apply L'].
  rewrite (simn_foldr_start_with_parser n P p Q q f N N').
  match goal with |- context [foldr_start_with_parser n p q f ?x ?y] => destruct (foldr_start_with_parser n p q f x y) end; simpl; try (left; reflexivity).
  destruct (f r0 r); left; reflexivity.
Qed.

Lemma sim_foldr : forall n P p v f, sim st P p -> sim st (l_foldr n P v f) (foldr n p v f).
Proof. intros. apply sim_foldr_start_with_parser; [assumption | apply sim_return]. Qed.

Lemma sim_foldr1 : forall n P p v f, sim st P p -> sim st (l_foldr1 n P v f) (foldr1 n p v f).
Proof. intros. apply sim_guard; [assumption | apply sim_foldr; assumption]. Qed.

Lemma simn_iterate_impl : forall n P p, simn P p ->
  forall k v, simn (l_iterate_impl n k P v) (iterate_impl n k p v).
Proof.
  intros n P p N. induction n as [|n IH]; intros k v s a; [reflexivity|].
  cbn [l_iterate_impl iterate_impl]. destruct (k =? 0); [reflexivity|]. rewrite N.
  destruct (p s a); simpl; try reflexivity. destruct (push_back v r); [apply IH | reflexivity].
Qed.

Lemma sim_iterate : forall n P p k, sim st P p -> sim st (l_iterate_c n P k) (iterate_c n p k).
Proof.
  intros n P p k [N L]. split; [apply simn_iterate_impl; assumption|]. intros s a.
  unfold l_iterate_c, iterate_c. generalize (VSeq []) as v. intros v.
  destruct n as [|n]; [left; reflexivity|]. cbn [l_iterate_impl iterate_impl].
  destruct (k =? 0); [left; reflexivity|].
  destruct (L s a) as [E|[? E]]; [rewrite <- E | rewrite E; right; auto].
  destruct (P s (Later a)); simpl; try (left; reflexivity).
  destruct (push_back v r); [|left; reflexivity].
  rewrite simn_iterate_impl with (p := p) by assumption. apply near_evaluated.
Qed.

(** *** one_of *)

Lemma sim_one_of_11 : forall Ps ps, Forall2 (sim st) Ps ps -> sim st (l_one_of_11 Ps) (one_of_11 ps).
Proof.
  induction 1 as [|P p Ps ps [N L] F [N' L']]; [apply sim_fail|].
  cbn [l_one_of_11 one_of_11]. step N L.
  - destruct (p s a); simpl; try reflexivity; rewrite N'; destruct (one_of_11 ps s a); simpl; try reflexivity.
    unfold later_result. case_pos; reflexivity.
  - destruct (P s (Later a)); simpl; try (left; reflexivity);
      (destruct (L' s a) as [E'|[? E']]; [rewrite <- E' | rewrite E'; right; auto]);
      destruct (l_one_of_11 Ps s (Later a)); simpl; try (left; reflexivity).
    unfold later_result. case_pos; left; reflexivity.
Qed.

Lemma simn_fwd_op : forall P p s a o, simn P p ->
  l_one_of_fwd_op s (Now a) (evaluated o) P = evaluated (one_of_fwd_op s a o p).
Proof.
  intros P p s a o N. unfold l_one_of_fwd_op, one_of_fwd_op.
  destruct o; simpl; try reflexivity; rewrite N; destruct (p s a); simpl; try reflexivity.
  unfold later_result. case_pos; reflexivity.
Qed.

Lemma near_fwd_op : forall P p s a c o, simg st P p -> near st c o ->
  near st (l_one_of_fwd_op s (Later a) c P) (one_of_fwd_op s a o p).
Proof.
  intros P p s a c o L [<-|[F ->]]; [|right; auto]. unfold l_one_of_fwd_op, one_of_fwd_op.
  destruct c; simpl; try (left; reflexivity);
    (destruct (L s a) as [E'|[? E']]; [rewrite <- E' | rewrite E'; right; auto]);
    destruct (P s (Later a)); simpl; try (left; reflexivity).
  unfold later_result. case_pos; left; reflexivity.
Qed.

Lemma sim_one_of_98_impl : forall Ps ps, Forall2 (sim st) Ps ps -> sim st (l_one_of_98_impl Ps) (one_of_98_impl ps).
Proof.
  intros Ps ps F. split; intros s a; unfold l_one_of_98_impl, one_of_98_impl.
  - change (l_fail none_of_the_expected_cases_found s (Now a))
      with (evaluated (fail none_of_the_expected_cases_found s a)).
    generalize (fail none_of_the_expected_cases_found s a) as o.
    induction F as [|P p Ps ps [N L] F IH]; intros o; [reflexivity|].
    cbn [fold_left]. rewrite (simn_fwd_op P p) by assumption. apply IH.
  - assert (I : near st (l_fail none_of_the_expected_cases_found s (Later a))
                  (fail none_of_the_expected_cases_found s a)) by (left; reflexivity).
    revert I. generalize (fail none_of_the_expected_cases_found s a) as o.
    generalize (l_fail none_of_the_expected_cases_found s (Later a)) as c.
    induction F as [|P p Ps ps [N L] F IH]; intros c o I; [exact I|].
    cbn [fold_left]. apply IH. apply near_fwd_op; assumption.
Qed.

Lemma Forall2_len : forall A B (R : A -> B -> Prop) l l', Forall2 R l l' -> length l = length l'.
Proof. induction 1; simpl; congruence. Qed.

Lemma sim_ill : sim st (fun _ _ => CIllformed) (fun _ _ => Illformed).
Proof. split; intros s a; [reflexivity | left; reflexivity]. Qed.

Lemma sim_one_of_98 : forall lim Ps ps, Forall2 (sim st) Ps ps -> sim st (l_one_of_98 lim Ps) (one_of_98 lim ps).
Proof.
  intros lim Ps ps F. unfold l_one_of_98, one_of_98. rewrite (Forall2_len _ _ _ _ _ F).
  destruct (Nat.leb (length ps) lim); [apply sim_one_of_98_impl; assumption | apply sim_ill].
Qed.

Lemma sim_one_of : forall cfg Ps ps, Forall2 (sim st) Ps ps -> sim st (l_one_of cfg Ps) (one_of cfg ps).
Proof.
  intros cfg Ps ps F. unfold l_one_of, one_of.
  destruct (cfg_std cfg); [apply sim_one_of_98 | apply sim_one_of_11 | apply sim_one_of_11]; assumption.
Qed.

(** *** sequence, nth_of

    Only the first parser is applied at the given position. *)
Definition head_sim (Ps : list lparser) (ps : list pfun) : Prop :=
  Forall2 simn Ps ps /\
  match Ps, ps with P :: _, p :: _ => simg st P p | _, _ => True end.

Lemma simn_transform : forall P p f, simn P p -> simn (l_transform P f) (transform p f).
Proof.
  intros P p f N s a. unfold l_transform, transform. rewrite N. destruct (p s a); simpl; crush.
Qed.

Lemma simn_sequence_11 : forall Ps ps, Forall2 simn Ps ps -> simn (l_sequence_11 Ps) (sequence_11 ps).
Proof.
  induction 1 as [|P p Ps ps N F IH]; [intros s a; reflexivity|]. intros s a. cbn [l_sequence_11 sequence_11].
  rewrite N. destruct (p s a); simpl; try reflexivity. apply simn_transform. exact IH.
Qed.

Lemma sim_sequence_11 : forall Ps ps, head_sim Ps ps -> sim st (l_sequence_11 Ps) (sequence_11 ps).
Proof.
  intros Ps ps [F H]. split; [apply simn_sequence_11; assumption|].
  destruct F as [|P p Ps ps N F]; [intros s a; left; reflexivity|].
  apply (sim_then P p (fun r => l_transform (l_sequence_11 Ps) (push_front_result r))
           (fun r => transform (sequence_11 ps) (push_front_result r)) (conj N H)).
  intros v. apply simn_transform. apply simn_sequence_11. assumption.
Qed.

Lemma simn_apply_parser : forall P p c, simn P p ->
  l_apply_parser c P = evaluated (apply_parser (strip c) p).
Proof.
  intros P p c N. unfold l_apply_parser, apply_parser. destruct c; simpl; try reflexivity.
  apply simn_transform. exact N.
Qed.

Lemma simn_sequence_fold : forall Ps ps, Forall2 simn Ps ps -> forall o,
  fold_left l_apply_parser Ps (evaluated o) = evaluated (fold_left apply_parser ps o).
Proof.
  induction 1 as [|P p Ps ps N F IH]; intros o; [reflexivity|]. cbn [fold_left].
  rewrite (simn_apply_parser P p) by assumption. rewrite strip_evaluated. apply IH.
Qed.

Lemma sim_sequence_impl : forall Ps ps, head_sim Ps ps -> sim st (l_sequence_impl Ps) (sequence_impl ps).
Proof.
  intros Ps ps [F H]. unfold l_sequence_impl, sequence_impl. split; intros s a.
  - apply (simn_sequence_fold Ps ps F (Accept (VSeq []) s a)).
  - destruct F as [|P p Ps ps N F]; [left; reflexivity|]. cbn [fold_left].
    rewrite (simn_apply_parser P p) by assumption.
    rewrite (simn_sequence_fold Ps ps F). apply near_evaluated.
Qed.

Lemma head_len : forall Ps ps, head_sim Ps ps -> length Ps = length ps.
Proof. intros Ps ps [F _]. eapply Forall2_len; eassumption. Qed.

Lemma sim_sequence : forall cfg Ps ps, head_sim Ps ps -> sim st (l_sequence cfg Ps) (sequence cfg ps).
Proof.
  intros cfg Ps ps F. unfold l_sequence, sequence, l_sequence_98, sequence_98. rewrite (head_len _ _ F).
  destruct (cfg_std cfg); try (apply sim_sequence_11; assumption).
  destruct (_ && _); [apply sim_sequence_impl; assumption | apply sim_ill].
Qed.

Lemma sim_sequence_apply : forall cfg t Ps ps, head_sim Ps ps ->
  sim st (l_sequence_apply cfg t Ps) (sequence_apply cfg t ps).
Proof.
  intros cfg t Ps ps F. unfold l_sequence_apply, sequence_apply. rewrite (head_len _ _ F).
  destruct (_ && _); [|apply sim_ill].
  apply (sim_transform _ _ (sequence_apply_transform t (length ps)) (sim_sequence cfg Ps ps F)).
Qed.

Lemma simn_skip_remaining : forall Ps ps, Forall2 simn Ps ps -> forall r,
  simn (l_skip_remaining r Ps) (nth_of_c_skip_remaining r ps).
Proof.
  induction 1 as [|P p Ps ps N F IH]; intros r s a; [reflexivity|].
  cbn [l_skip_remaining nth_of_c_skip_remaining]. rewrite N. destruct (p s a); simpl; try reflexivity. apply IH.
Qed.

Lemma simn_nth_of_c_11_impl : forall Ps ps, Forall2 simn Ps ps -> forall k,
  simn (l_nth_of_c_11_impl k Ps) (nth_of_c_11_impl k ps).
Proof.
  induction 1 as [|P p Ps ps N F IH]; intros k s a; [reflexivity|].
  cbn [l_nth_of_c_11_impl nth_of_c_11_impl]. rewrite N. destruct (p s a); simpl; try reflexivity.
  destruct (k =? 0); [apply simn_skip_remaining; assumption | apply IH].
Qed.

Lemma sim_nth_of_c_11_impl : forall Ps ps k, head_sim Ps ps ->
  sim st (l_nth_of_c_11_impl k Ps) (nth_of_c_11_impl k ps).
Proof.
  intros Ps ps k [F H]. split; [apply simn_nth_of_c_11_impl; assumption|].
  destruct F as [|P p Ps ps N F]; [intros s a; left; reflexivity|]. intros s a.
  cbn [l_nth_of_c_11_impl nth_of_c_11_impl].
  destruct (H s a) as [E|[? E]]; [rewrite <- E | rewrite E; right; auto].
  destruct (P s (Later a)); simpl; try (left; reflexivity).
  destruct (k =? 0).
  - rewrite (simn_skip_remaining Ps ps F). apply near_evaluated.
  - rewrite (simn_nth_of_c_11_impl Ps ps F). apply near_evaluated.
Qed.

Lemma sim_nth_of_c_11 : forall Ps ps k, head_sim Ps ps -> sim st (l_nth_of_c_11 k Ps) (nth_of_c_11 k ps).
Proof.
  intros Ps ps k F. unfold l_nth_of_c_11, nth_of_c_11. rewrite (head_len _ _ F).
  assert (A := sim_nth_of_c_11_impl Ps ps k F). destruct F as [F _].
  destruct F; [apply sim_fail|].
  match goal with |- context [if ?b then _ else _] => destruct b end; [exact A | apply sim_fail].
Qed.

Lemma simn_skip_seq : forall P p o, simn P p ->
  l_skip_seq (evaluated o) P = evaluated (skip_seq o p).
Proof.
  intros P p o N. unfold l_skip_seq, skip_seq. destruct o; simpl; try reflexivity. rewrite N.
  match goal with |- context [p ?x ?y] => destruct (p x y) end; reflexivity.
Qed.

Lemma simn_skip_seqs : forall Ps ps, Forall2 simn Ps ps -> forall o,
  fold_left l_skip_seq Ps (evaluated o) = evaluated (fold_left skip_seq ps o).
Proof.
  induction 1 as [|P p Ps ps N F IH]; intros o; [reflexivity|]. cbn [fold_left].
  rewrite (simn_skip_seq P p) by assumption. apply IH.
Qed.

Lemma near_skip_seqs : forall Ps ps, Forall2 simn Ps ps -> forall c o, near st c o ->
  near st (fold_left l_skip_seq Ps c) (fold_left skip_seq ps o).
Proof.
  induction 1 as [|P p Ps ps N F IH]; intros c o H; [exact H|]. cbn [fold_left]. apply IH.
  destruct H as [<-|[E ->]]; [|right; auto]. unfold l_skip_seq, skip_seq. destruct c; simpl; try (left; reflexivity).
  rewrite N. match goal with |- context [p ?x ?y] => destruct (p x y) end; left; reflexivity.
Qed.

Lemma simn_nth_of_c_98_impl : forall Ps ps, Forall2 simn Ps ps -> forall k,
  simn (l_nth_of_c_98_impl k Ps) (nth_of_c_98_impl k ps).
Proof.
  induction 1 as [|P p Ps ps N F IH]; intros k s a; [reflexivity|].
  cbn [l_nth_of_c_98_impl nth_of_c_98_impl]. destruct (k =? 0); rewrite (N s a).
  - apply simn_skip_seqs. assumption.
  - destruct (p s a); simpl; try reflexivity. apply IH.
Qed.

Lemma sim_nth_of_c_98_impl : forall Ps ps k, head_sim Ps ps ->
  sim st (l_nth_of_c_98_impl k Ps) (nth_of_c_98_impl k ps).
Proof.
  intros Ps ps k [F H]. split; [apply simn_nth_of_c_98_impl; assumption|].
  destruct F as [|P p Ps ps N F]; [intros s a; left; reflexivity|]. intros s a.
  cbn [l_nth_of_c_98_impl nth_of_c_98_impl]. destruct (k =? 0).
  - apply near_skip_seqs; [assumption | apply H].
  - destruct (H s a) as [E|[? E]]; [rewrite <- E | rewrite E; right; auto].
    destruct (P s (Later a)); simpl; try (left; reflexivity).
    rewrite (simn_nth_of_c_98_impl Ps ps F). apply near_evaluated.
Qed.

Lemma sim_nth_of_cN : forall Ps ps k, head_sim Ps ps -> sim st (l_nth_of_cN k Ps) (nth_of_cN k ps).
Proof.
  intros Ps ps k F. unfold l_nth_of_cN, nth_of_cN. rewrite (head_len _ _ F).
  match goal with |- context [if ?b then _ else _] => destruct b end;
    [apply sim_nth_of_c_98_impl; assumption | apply sim_fail].
Qed.

Lemma sim_nth_of_c_98 : forall lim Ps ps k, head_sim Ps ps -> sim st (l_nth_of_c_98 lim k Ps) (nth_of_c_98 lim k ps).
Proof.
  intros lim Ps ps k F. unfold l_nth_of_c_98, nth_of_c_98. rewrite (head_len _ _ F).
  destruct (Nat.ltb _ _); [apply sim_nth_of_cN; assumption | apply sim_ill].
Qed.

Lemma sim_nth_of_c : forall cfg Ps ps k, head_sim Ps ps -> sim st (l_nth_of_c cfg k Ps) (nth_of_c cfg k ps).
Proof.
  intros cfg Ps ps k F. unfold l_nth_of_c, nth_of_c.
  destruct (cfg_std cfg); [apply sim_nth_of_c_98 | apply sim_nth_of_c_11 | apply sim_nth_of_c_11]; assumption.
Qed.

Lemma sim_first_of_11 : forall Ps ps k m, head_sim Ps ps ->
  sim st (match Ps with [] => l_fail m | _ :: _ => l_nth_of_c_11_impl k Ps end)
    (match ps with [] => fail m | _ :: _ => nth_of_c_11_impl k ps end).
Proof.
  intros Ps ps k m F. assert (A := sim_nth_of_c_11_impl Ps ps k F). destruct F as [F _].
  destruct F; [apply sim_fail | exact A].
Qed.

Lemma sim_first_of : forall cfg Ps ps, head_sim Ps ps -> sim st (l_first_of cfg Ps) (first_of cfg ps).
Proof.
  intros cfg Ps ps F. unfold l_first_of, first_of, first_of_98, first_of_11.
  destruct (cfg_std cfg); [apply sim_nth_of_c_98; assumption | |];
    apply (sim_first_of_11 Ps ps 0 (index_out_of_range 0 (-1) 0) F).
Qed.

Lemma sim_last_of : forall cfg Ps ps, head_sim Ps ps -> sim st (l_last_of cfg Ps) (last_of cfg ps).
Proof.
  intros cfg Ps ps F. unfold l_last_of, last_of, last_of_98, last_of_11. rewrite (head_len _ _ F).
  destruct (cfg_std cfg).
  - destruct (Nat.ltb _ _); [apply sim_nth_of_cN; assumption | apply sim_ill].
  - apply (sim_first_of_11 Ps ps _ (index_out_of_range 0 (-1) 0) F).
  - apply (sim_first_of_11 Ps ps _ (index_out_of_range 0 (-1) 0) F).
Qed.

Lemma sim_one_of_c : forall cfg cs, sim st (l_one_of_c cfg cs) (one_of_c cfg cs).
Proof.
  intros cfg cs. unfold l_one_of_c, one_of_c, one_of_c_98, one_of_c_11, one_of_c_14.
  destruct (cfg_std cfg); try (apply sim_accept_when; apply sim_one_char).
  destruct (Nat.ltb _ _); [|apply sim_ill]. apply sim_one_of_98.
  induction cs as [|c cs IH]; constructor; [apply sim_lit_c | exact IH].
Qed.

Lemma sim_one_char_except_c : forall cfg cs, sim st (l_one_char_except_c cfg cs) (one_char_except_c cfg cs).
Proof.
  intros cfg cs. unfold l_one_char_except_c, one_char_except_c, one_char_except_c_98, one_char_except_c_11.
  destruct (cfg_std cfg); try (apply sim_accept_when; apply sim_one_char).
  destruct (Nat.ltb _ _); [|apply sim_ill]. apply sim_accept_when. apply sim_one_char.
Qed.

Lemma simn_transform_error_message : forall P p f,
  simn P p -> simn (l_transform_error_message P f) (transform_error_message p f).
Proof.
  intros P p f N s a. unfold l_transform_error_message, transform_error_message. rewrite N.
  destruct (p s a); simpl; crush.
Qed.

Lemma sim_middle_of : forall cfg P1 p1 P2 p2 P3 p3,
  sim st P1 p1 -> simn P2 p2 -> simn P3 p3 ->
  sim st (l_middle_of cfg P1 P2 P3) (middle_of cfg p1 p2 p3).
Proof.
  intros cfg P1 p1 P2 p2 P3 p3 [N L] N2 N3.
  assert (H : forall x, head_sim
      [P1; P2; l_transform_error_message P3 (fun m => Some (unpaired (line x) (col x) m))]
      [p1; p2; transform_error_message p3 (fun m => Some (unpaired (line x) (col x) m))]).
  { intros x. split; [|exact L]. repeat constructor; try assumption.
    apply simn_transform_error_message. assumption. }
  split; intros s a; unfold l_middle_of, middle_of, get_line, get_col; simpl force;
    apply (sim_nth_of_c cfg _ _ 1 (H a)).
Qed.

Lemma sim_entire_input : forall cfg P p m, sim st P p -> sim st (l_entire_input cfg P m) (entire_input cfg p m).
Proof.
  intros cfg P p m [N L]. unfold l_entire_input, entire_input, entire_input_default, entire_input_msg.
  assert (E1 : head_sim [P; l_empty VVoid] [p; empty VVoid]).
  { split; [|exact L]. repeat constructor; [exact N | intros s a; apply (sim_empty VVoid)]. }
  assert (E2 : head_sim [P; l_change_error_message (l_empty VVoid) m] [p; change_error_message (empty VVoid) m]).
  { split; [|exact L]. repeat constructor; [exact N|].
    apply (sim_change_error_message _ _ m (sim_empty VVoid)). }
  destruct m; apply sim_first_of; assumption.
Qed.

Lemma sim_foldr_reject_incomplete : forall cfg n P p v f, sim st P p ->
  sim st (l_foldr_reject_incomplete cfg n P v f) (foldr_reject_incomplete cfg n p v f).
Proof.
  intros cfg n P p v f [N L]. apply sim_foldr_start_with_parser; [split; assumption|].
  apply sim_first_of. split; [|apply sim_return]. constructor; [intros s a; reflexivity|].
  constructor; [|constructor]. apply simn_fail_at_first_char_expected. exact N.
Qed.

Lemma sim_foldr_reject_incomplete1 : forall cfg n P p v f, sim st P p ->
  sim st (l_foldr_reject_incomplete1 cfg n P v f) (foldr_reject_incomplete1 cfg n p v f).
Proof. intros. apply sim_guard; [assumption | apply sim_foldr_reject_incomplete; assumption]. Qed.

Lemma sim_native : forall p, sim st (fun s a => evaluated (p s (force a))) p.
Proof. intros p. split; intros s a; [reflexivity | apply near_evaluated]. Qed.

End Combinators.

Lemma Forall2_sim_map : forall (F : pexpr -> lparser) (f : pexpr -> pfun) (R : lparser -> pfun -> Prop) l,
  (forall c, In c l -> R (F c) (f c)) -> Forall2 R (map F l) (map f l).
Proof.
  induction l as [|x l IH]; intros H; constructor; [apply H; left; reflexivity|].
  apply IH. intros c Hc. apply H. right. exact Hc.
Qed.

Lemma sim_simn : forall st P p, sim st P p -> simn P p.
Proof. intros st P p [N _]. exact N. Qed.

(** With [strict = false] for every expression *)
Section Loose.
Variables (cfg : config) (env : program).

Lemma sim_loose_list : forall n l,
  (forall c, In c l -> sim false (l_eval cfg env n c) (eval cfg env n c)) ->
  Forall2 (sim false) (map (l_eval cfg env n) l) (map (eval cfg env n) l)
  /\ head_sim false (map (l_eval cfg env n) l) (map (eval cfg env n) l).
Proof.
  intros n l H. assert (F := Forall2_sim_map (l_eval cfg env n) (eval cfg env n) (sim false) l H).
  split; [exact F|]. split.
  - apply Forall2_sim_map. intros c Hc. apply (sim_simn false). apply H. exact Hc.
  - destruct l; [exact I|]. simpl. apply H. left. reflexivity.
Qed.

Lemma loose : forall n e, sim false (l_eval cfg env n e) (eval cfg env n e).
Proof.
  induction n as [n IHn] using (well_founded_induction Wf_nat.lt_wf). intros e.
  induction e as [e IH] using pexpr_children_ind.
  assert (HL : forall l, children e = l -> Forall2 (sim false) (map (l_eval cfg env n) l) (map (eval cfg env n) l)
     /\ head_sim false (map (l_eval cfg env n) l) (map (eval cfg env n) l)).
  { intros l <-. apply sim_loose_list. exact IH. }
  destruct e; simpl in IH;
    try (assert (X := IH _ (or_introl eq_refl)));
    try (assert (Y := IH _ (or_intror (or_introl eq_refl))));
    try (assert (Z := IH _ (or_intror (or_intror (or_introl eq_refl)))));
    try (specialize (HL _ eq_refl); destruct HL as [HL HH]).
  all: try (assert (X' := sim_simn _ _ _ X)); try (assert (Y' := sim_simn _ _ _ Y)); try (assert (Z' := sim_simn _ _ _ Z)).
  all: try (destruct n as [|n']; cbn [l_eval eval]; first
    [ apply sim_native | apply sim_return | apply sim_fail | apply sim_one_char | apply sim_empty
    | apply sim_accept_when; exact X | apply sim_change_error_message; exact X | apply sim_transform; exact X
    | apply sim_transform_error; exact X | apply sim_transform_error_message; exact X | apply sim_always; exact X
    | apply sim_look_ahead; exact X | apply sim_optional; exact X | apply sim_except; exact X | apply sim_if; exact X
    | apply sim_fail_at_first_char_expected; [reflexivity | exact X] | apply sim_keyword
    | apply sim_foldl; exact X | apply sim_foldl1; exact X | apply sim_foldl_reject_incomplete; exact X
    | apply sim_foldl_reject_incomplete1; exact X
    | apply sim_foldl_start_with_parser; [exact X' | exact Y]
    | apply sim_foldl_reject_incomplete_start_with_parser; [exact X' | exact Y]
    | apply sim_foldr_start_with_parser; [exact X | exact Y]
    | apply sim_foldr; exact X | apply sim_foldr1; exact X | apply sim_foldr_reject_incomplete; exact X
    | apply sim_foldr_reject_incomplete1; exact X | apply sim_iterate; exact X
    | apply sim_one_of; exact HL | apply sim_sequence; exact HH | apply sim_sequence_apply; exact HH
    | apply sim_nth_of_c; exact HH | apply sim_first_of; exact HH | apply sim_last_of; exact HH
    | apply sim_one_of_c | apply sim_one_char_except_c
    | apply sim_middle_of; [exact X | exact Y' | exact Z']
    | apply sim_entire_input; exact X ]).
  destruct n as [|n']; cbn [l_eval eval].
  - split; intros s a; [reflexivity | left; reflexivity].
  - apply (IHn n' (PeanoNat.Nat.lt_succ_diag_r n')).
Qed.

Lemma npt_first : forall e c, no_position_test env e -> In c (first e) -> no_position_test env c.
Proof. intros e c H Hc p S. apply (H p). eapply starts_first; eassumption. Qed.

Lemma first_children : forall e c, In c (first e) -> In c (children e).
Proof.
  destruct e; simpl; auto; intros c; try tauto; destruct l; simpl; tauto.
Qed.

Lemma strict : forall n e, no_position_test env e -> sim true (l_eval cfg env n e) (eval cfg env n e).
Proof.
  induction n as [n IHn] using (well_founded_induction Wf_nat.lt_wf). intros e.
  induction e as [e IH] using pexpr_children_ind. intros NT.
  assert (H1 : forall c, In c (first e) -> sim true (l_eval cfg env n c) (eval cfg env n c)).
  { intros c Hc. apply IH; [apply first_children; exact Hc | eapply npt_first; eassumption]. }
  assert (H2 : forall c, simn (l_eval cfg env n c) (eval cfg env n c)).
  { intros c. apply (loose n c). }
  assert (HS : forall l, (match l with [] => True | c :: _ => sim true (l_eval cfg env n c) (eval cfg env n c) end) ->
     head_sim true (map (l_eval cfg env n) l) (map (eval cfg env n) l)).
  { intros l Hl. split.
    - apply Forall2_sim_map. intros c _. apply H2.
    - destruct l; [exact I | apply Hl]. }
  destruct e; simpl in H1;
    try (assert (X := H1 _ (or_introl eq_refl)));
    try (assert (Y := H1 _ (or_intror (or_introl eq_refl)))).
  all: try (exfalso; apply (NT e); constructor).
  all: try (assert (HH : head_sim true (map (l_eval cfg env n) l) (map (eval cfg env n) l));
            [apply HS; destruct l; [exact I | apply H1; left; reflexivity]|]).
  all: try (destruct n as [|n']; cbn [l_eval eval]; first
    [ apply sim_native | apply sim_return | apply sim_fail | apply sim_one_char | apply sim_empty
    | apply sim_accept_when; exact X | apply sim_change_error_message; exact X | apply sim_transform; exact X
    | apply sim_transform_error; exact X | apply sim_transform_error_message; exact X | apply sim_always; exact X
    | apply sim_look_ahead; exact X | apply sim_optional; exact X | apply sim_except; exact X | apply sim_if; exact X
    | apply sim_keyword
    | apply sim_foldl; exact X | apply sim_foldl1; exact X | apply sim_foldl_reject_incomplete; exact X
    | apply sim_foldl_reject_incomplete1; exact X
    | apply sim_foldl_start_with_parser; [apply H2 | exact X]
    | apply sim_foldl_reject_incomplete_start_with_parser; [apply H2 | exact X]
    | apply sim_foldr_start_with_parser; [exact X | exact Y]
    | apply sim_foldr; exact X | apply sim_foldr1; exact X | apply sim_foldr_reject_incomplete; exact X
    | apply sim_foldr_reject_incomplete1; exact X | apply sim_iterate; exact X
    | apply sim_one_of; apply Forall2_sim_map; exact H1
    | apply sim_sequence; exact HH | apply sim_sequence_apply; exact HH
    | apply sim_nth_of_c; exact HH | apply sim_first_of; exact HH | apply sim_last_of; exact HH
    | apply sim_one_of_c | apply sim_one_char_except_c
    | apply sim_middle_of; [exact X | apply H2 | apply H2]
    | apply sim_entire_input; exact X ]).
  destruct n as [|n']; cbn [l_eval eval].
  - split; intros s a; [reflexivity | left; reflexivity].
  - apply (IHn n' (PeanoNat.Nat.lt_succ_diag_r n')). intros p S. apply (NT p). apply starts_ref. exact S.
Qed.

End Loose.

(** ** Evaluated results *)

Definition vals (P : lparser) : Prop := forall s a, is_value (P s a).
Definition nvals (P : lparser) : Prop := forall s a, is_value (P s (Now a)).

Lemma value_evaluated : forall o, is_value (evaluated o).
Proof. destruct o; constructor. Qed.

Lemma value_type : forall c, is_value (type c).
Proof. destruct c; constructor. Qed.

Lemma simn_value : forall P p s a, simn P p -> is_value (P s (Now a)).
Proof. intros P p s a N. rewrite N. apply value_evaluated. Qed.

Ltac value1 V s a :=
  generalize (V s a); cbv beta;
  match goal with |- is_value ?c -> _ => let H := fresh "H" in destruct c eqn:?; intros H; simpl end.

Ltac values := repeat match goal with
  | |- is_value (type _) => apply value_type
  | |- is_value (evaluated _) => apply value_evaluated
  | |- is_value CIllformed => constructor
  | |- is_value COutOfFuel => constructor
  | |- is_value (CAccept _ (Now _) (Now _)) => constructor
  | |- is_value (CReject _ (Now _)) => constructor
  | V : vals ?P |- is_value (match ?P ?s ?a with _ => _ end) => value1 V s a
  | V : nvals ?P |- is_value (match ?P ?s (Now ?a) with _ => _ end) => value1 V s a
  | |- is_value (match ?x with _ => _ end) => destruct x
  | H : is_value ?c |- is_value ?c => exact H
  end.

Lemma vals_return : forall v, vals (l_return v).
Proof. intros v s a. apply value_type. Qed.
Lemma vals_fail : forall v, vals (l_fail v).
Proof. intros v s a. apply value_type. Qed.
Lemma vals_one_char : vals l_one_char.
Proof. intros [|c s] a; apply value_type. Qed.

Lemma vals_accept_when : forall P pr m, vals P -> vals (l_accept_when P pr m).
Proof. intros P pr m V s a. unfold l_accept_when. value1 V s a; values. Qed.
Lemma vals_change_error_message : forall P m, vals P -> vals (l_change_error_message P m).
Proof. intros P m V s a. unfold l_change_error_message. value1 V s a; values. Qed.
Lemma vals_transform : forall P f, vals P -> vals (l_transform P f).
Proof. intros P f V s a. unfold l_transform. value1 V s a; values. Qed.
Lemma vals_transform_error : forall P f, vals P -> vals (l_transform_error P f).
Proof. intros P f V s a. unfold l_transform_error. value1 V s a; values. Qed.
Lemma vals_transform_error_message : forall P f, vals P -> vals (l_transform_error_message P f).
Proof. intros P f V s a. unfold l_transform_error_message. value1 V s a; values. Qed.
Lemma vals_always : forall P v, vals P -> vals (l_always P v).
Proof. intros P v V s a. unfold l_always. value1 V s a; values. Qed.
Lemma vals_look_ahead : forall P, vals P -> vals (l_look_ahead P).
Proof. intros P V s a. unfold l_look_ahead. value1 V s a; values. Qed.
Lemma vals_if : forall P t f, vals P -> vals (l_if P t f).
Proof. intros P t f V s a. unfold l_if. value1 V s a; values. Qed.
Lemma vals_fail_at_first_char_expected : forall P, vals P -> vals (l_fail_at_first_char_expected P).
Proof. intros P V s a. unfold l_fail_at_first_char_expected. value1 V s a; values. Qed.
Lemma vals_lit_c : forall c, vals (l_lit_c c).
Proof. intros c. apply vals_accept_when, vals_change_error_message, vals_one_char. Qed.

Lemma vals_keyword : forall kw r, vals (l_keyword kw r).
Proof.
  induction kw as [|c kw IH]; intros r s a; [apply value_type|]. cbn [l_keyword].
  value1 (vals_lit_c c) s a; values. apply IH.
Qed.

Lemma vals_foldl : forall n P f, vals P -> forall v, vals (l_foldl n P v f).
Proof.
  induction n as [|n IH]; intros P f V v s a; [constructor|]. cbn [l_foldl].
  value1 V s a; values. apply IH. exact V.
Qed.

Lemma vals_foldl_reject_incomplete : forall n P f, vals P -> forall v, vals (l_foldl_reject_incomplete n P v f).
Proof.
  induction n as [|n IH]; intros P f V v s a; [constructor|]. cbn [l_foldl_reject_incomplete].
  value1 V s a; values. apply IH. exact V.
Qed.

Lemma vals_guard : forall P Q, vals P -> vals Q ->
  vals (fun s a => match P s a with CAccept _ _ _ => Q s a | c => c end).
Proof. intros P Q V W s a. value1 V s a; values. apply W. Qed.

Lemma vals_then : forall P (Q : value -> lparser), vals P -> (forall v s a, is_value (Q v s (Now a))) ->
  vals (fun s a => match P s a with CAccept r s' a' => Q r (force s') (Now (force a')) | c => c end).
Proof. intros P Q V W s a. value1 V s a; values. apply W. Qed.

Lemma vals_foldr_start_with_parser : forall n P Q f, vals P -> vals Q -> vals (l_foldr_start_with_parser n P Q f).
Proof.
  induction n as [|n IH]; intros P Q f V W s a; [constructor|]. cbn [l_foldr_start_with_parser].
  value1 V s a; [|apply W | constructor | constructor].
  match goal with |- context [l_foldr_start_with_parser n P Q f ?x ?y] => value1 (IH P Q f V W) x y end; values.
Qed.

Lemma vals_iterate : forall n P, vals P -> forall k v, vals (l_iterate_impl n k P v).
Proof.
  induction n as [|n IH]; intros P V k v s a; [constructor|]. cbn [l_iterate_impl].
  destruct (k =? 0); [apply value_type|]. value1 V s a; values. apply IH. exact V.
Qed.

Lemma vals_one_of_11 : forall Ps, Forall vals Ps -> vals (l_one_of_11 Ps).
Proof.
  induction 1 as [|P Ps V F IH]; [apply vals_fail|]. intros s a. cbn [l_one_of_11].
  value1 V s a; values; value1 IH s a; values.
Qed.

Lemma vals_one_of_98_impl : forall Ps, Forall vals Ps -> vals (l_one_of_98_impl Ps).
Proof.
  intros Ps F s a. unfold l_one_of_98_impl.
  generalize (vals_fail none_of_the_expected_cases_found s a).
  generalize (l_fail none_of_the_expected_cases_found s a) as c.
  induction F as [|P Ps V F IH]; intros c H; [exact H|]. cbn [fold_left]. apply IH.
  unfold l_one_of_fwd_op. destruct c; values; value1 V s a; values.
Qed.

Lemma vals_ill : vals (fun _ _ => CIllformed).
Proof. intros s a. constructor. Qed.

Lemma vals_one_of : forall cfg Ps, Forall vals Ps -> vals (l_one_of cfg Ps).
Proof.
  intros cfg Ps F. unfold l_one_of, l_one_of_98.
  destruct (cfg_std cfg); try (apply vals_one_of_11; exact F).
  destruct (Nat.leb _ _); [apply vals_one_of_98_impl; exact F | apply vals_ill].
Qed.

Lemma vals_one_of_c : forall cfg cs, vals (l_one_of_c cfg cs).
Proof.
  intros cfg cs. unfold l_one_of_c, l_one_of_98.
  destruct (cfg_std cfg); try (apply vals_accept_when, vals_one_char).
  destruct (Nat.ltb _ _); [|apply vals_ill]. destruct (Nat.leb _ _); [|apply vals_ill].
  apply vals_one_of_98_impl. induction cs as [|c cs IH]; constructor; [apply vals_lit_c | exact IH].
Qed.

Lemma vals_one_char_except_c : forall cfg cs, vals (l_one_char_except_c cfg cs).
Proof.
  intros cfg cs. unfold l_one_char_except_c.
  destruct (cfg_std cfg); try (apply vals_accept_when, vals_one_char).
  destruct (Nat.ltb _ _); [apply vals_accept_when, vals_one_char | apply vals_ill].
Qed.

(** Sequences of parsers: the first one has evaluated results, and the others where
    the position is a value *)
Definition head_vals (Ps : list lparser) : Prop :=
  Forall nvals Ps /\ match Ps with [] => True | P :: _ => vals P end.

Lemma nvals_transform : forall P f, nvals P -> nvals (l_transform P f).
Proof. intros P f V s a. unfold l_transform. value1 V s a; values. Qed.

Lemma nvals_sequence_11 : forall Ps, Forall nvals Ps -> nvals (l_sequence_11 Ps).
Proof.
  induction 1 as [|P Ps V F IH]; intros s a; [apply value_type|]. cbn [l_sequence_11].
  value1 V s a; values. apply nvals_transform. exact IH.
Qed.

Lemma vals_sequence_11 : forall Ps, head_vals Ps -> vals (l_sequence_11 Ps).
Proof.
  intros [|P Ps] [F V]; [apply vals_return|]. inversion F; subst. intros s a. cbn [l_sequence_11].
  value1 V s a; values. apply nvals_transform. apply nvals_sequence_11. assumption.
Qed.

Lemma value_apply_parser : forall P c, nvals P -> is_value (l_apply_parser c P).
Proof.
  intros P c V. unfold l_apply_parser. destruct c; simpl; values. apply nvals_transform. exact V.
Qed.

Lemma value_sequence_fold : forall Ps c, Forall nvals Ps -> is_value c -> is_value (fold_left l_apply_parser Ps c).
Proof.
  induction Ps as [|P Ps IH]; intros c F H; [exact H|]. inversion F; subst. cbn [fold_left].
  apply IH; [assumption|]. apply value_apply_parser. assumption.
Qed.

Lemma vals_sequence : forall cfg Ps, head_vals Ps -> vals (l_sequence cfg Ps).
Proof.
  intros cfg Ps F. unfold l_sequence, l_sequence_98.
  destruct (cfg_std cfg); try (apply vals_sequence_11; exact F).
  destruct (_ && _) eqn:E; [|apply vals_ill]. intros s a. unfold l_sequence_impl.
  destruct F as [F _]. destruct F; [discriminate|]. cbn [fold_left].
  apply value_sequence_fold; [assumption|]. apply value_apply_parser. assumption.
Qed.

Lemma vals_sequence_apply : forall cfg t Ps, head_vals Ps -> vals (l_sequence_apply cfg t Ps).
Proof.
  intros cfg t Ps F. unfold l_sequence_apply. destruct (_ && _); [|apply vals_ill].
  apply (vals_transform _ (sequence_apply_transform t (length Ps)) (vals_sequence cfg Ps F)).
Qed.

Lemma nvals_skip_remaining : forall Ps, Forall nvals Ps -> forall r, nvals (l_skip_remaining r Ps).
Proof.
  induction 1 as [|P Ps V F IH]; intros r s a; [apply value_type|]. cbn [l_skip_remaining].
  value1 V s a; values. apply IH.
Qed.

Lemma nvals_nth_of_c_11_impl : forall Ps, Forall nvals Ps -> forall k, nvals (l_nth_of_c_11_impl k Ps).
Proof.
  induction 1 as [|P Ps V F IH]; intros k s a; [constructor|]. cbn [l_nth_of_c_11_impl].
  value1 V s a; values; [apply nvals_skip_remaining; exact F | apply IH].
Qed.

Lemma vals_nth_of_c_11_impl : forall Ps k, head_vals Ps -> vals (l_nth_of_c_11_impl k Ps).
Proof.
  intros [|P Ps] k [F V]; [apply vals_ill|]. inversion F; subst. intros s a. cbn [l_nth_of_c_11_impl].
  value1 V s a; values; [apply nvals_skip_remaining; assumption | apply nvals_nth_of_c_11_impl; assumption].
Qed.

Lemma value_skip_seqs : forall Ps, Forall nvals Ps -> forall c, is_value c -> is_value (fold_left l_skip_seq Ps c).
Proof.
  induction 1 as [|P Ps V F IH]; intros c H; [exact H|]. cbn [fold_left]. apply IH.
  unfold l_skip_seq. destruct c; values.
Qed.

Lemma nvals_nth_of_c_98_impl : forall Ps, Forall nvals Ps -> forall k, nvals (l_nth_of_c_98_impl k Ps).
Proof.
  induction 1 as [|P Ps V F IH]; intros k s a; [constructor|]. cbn [l_nth_of_c_98_impl].
  destruct (k =? 0); [apply value_skip_seqs; [exact F | apply V]|]. value1 V s a; values. apply IH.
Qed.

Lemma vals_nth_of_c_98_impl : forall Ps k, head_vals Ps -> vals (l_nth_of_c_98_impl k Ps).
Proof.
  intros [|P Ps] k [F V]; [apply vals_ill|]. inversion F; subst. intros s a. cbn [l_nth_of_c_98_impl].
  destruct (k =? 0); [apply value_skip_seqs; [assumption | apply V]|].
  value1 V s a; values. apply nvals_nth_of_c_98_impl. assumption.
Qed.

Lemma vals_nth_of_cN : forall Ps k, head_vals Ps -> vals (l_nth_of_cN k Ps).
Proof.
  intros Ps k F s a. unfold l_nth_of_cN.
  match goal with |- context [if ?b then _ else _] => destruct b end;
    [apply vals_nth_of_c_98_impl; exact F | apply vals_fail].
Qed.

Lemma vals_nth_of_c_98 : forall lim Ps k, head_vals Ps -> vals (l_nth_of_c_98 lim k Ps).
Proof.
  intros lim Ps k F s a. unfold l_nth_of_c_98. destruct (Nat.ltb _ _); [apply vals_nth_of_cN; exact F | constructor].
Qed.

Lemma vals_nth_of_c : forall cfg Ps k, head_vals Ps -> vals (l_nth_of_c cfg k Ps).
Proof.
  intros cfg Ps k F. unfold l_nth_of_c, l_nth_of_c_11.
  destruct (cfg_std cfg); [apply vals_nth_of_c_98; exact F | |];
    (destruct Ps as [|P Ps]; [apply vals_fail|]; intros s a;
     match goal with |- context [if ?b then _ else _] => destruct b end;
     [apply vals_nth_of_c_11_impl; exact F | apply vals_fail]).
Qed.

Lemma vals_first_of : forall cfg Ps, head_vals Ps -> vals (l_first_of cfg Ps).
Proof.
  intros cfg Ps F. unfold l_first_of.
  destruct (cfg_std cfg); [apply vals_nth_of_c_98; exact F | |];
    (destruct Ps as [|P Ps]; [apply vals_fail | apply vals_nth_of_c_11_impl; exact F]).
Qed.

Lemma vals_last_of : forall cfg Ps, head_vals Ps -> vals (l_last_of cfg Ps).
Proof.
  intros cfg Ps F. unfold l_last_of.
  destruct (cfg_std cfg).
  - intros s a. destruct (Nat.ltb _ _); [apply vals_nth_of_cN; exact F | constructor].
  - destruct Ps as [|P Ps]; [apply vals_fail | apply vals_nth_of_c_11_impl; exact F].
  - destruct Ps as [|P Ps]; [apply vals_fail | apply vals_nth_of_c_11_impl; exact F].
Qed.

Lemma vals_middle_of : forall cfg P1 P2 P3, vals P1 -> nvals P2 -> nvals P3 -> vals (l_middle_of cfg P1 P2 P3).
Proof.
  intros cfg P1 P2 P3 V1 V2 V3 s a. unfold l_middle_of. apply vals_nth_of_c. split; [|exact V1].
  constructor; [intros s' a'; apply V1|]. constructor; [exact V2|]. constructor; [|constructor].
  intros s' a'. unfold l_transform_error_message. value1 V3 s' a'; values.
Qed.

Lemma vals_entire_input : forall cfg P m, vals P -> vals (l_entire_input cfg P m).
Proof.
  intros cfg P m V. unfold l_entire_input.
  assert (E : nvals (l_empty VVoid)) by (intros [|c s] a; constructor).
  assert (E2 : nvals (l_change_error_message (l_empty VVoid) m)).
  { intros s a. unfold l_change_error_message. value1 E s a; values. }
  assert (H1 : head_vals [P; l_empty VVoid]).
  { split; [|exact V]. constructor; [intros s' a'; apply V|]. constructor; [exact E | constructor]. }
  assert (H2 : head_vals [P; l_change_error_message (l_empty VVoid) m]).
  { split; [|exact V]. constructor; [intros s' a'; apply V|]. constructor; [exact E2 | constructor]. }
  destruct m; apply vals_first_of; assumption.
Qed.

Lemma vals_foldr_reject_incomplete : forall cfg n P v f, vals P -> vals (l_foldr_reject_incomplete cfg n P v f).
Proof.
  intros cfg n P v f V. apply vals_foldr_start_with_parser; [exact V|]. apply vals_first_of.
  split; [|apply vals_return]. constructor; [intros s a; apply vals_return|].
  constructor; [|constructor]. intros s a. apply vals_fail_at_first_char_expected. exact V.
Qed.

Section Values.
Variables (cfg : config) (env : program).

Lemma nvals_eval : forall n e, nvals (l_eval cfg env n e).
Proof. intros n e s a. destruct (loose cfg env n e) as [N _]. rewrite N. apply value_evaluated. Qed.

Lemma Forall_vals : forall n l, (forall c, In c l -> vals (l_eval cfg env n c)) -> Forall vals (map (l_eval cfg env n) l).
Proof. intros n l H. apply Forall_forall. intros P I. apply in_map_iff in I as (c & <- & I). apply H. exact I. Qed.

Lemma evaluates : forall n e, (forall d, starts_with env e d -> ~ hands_on d) -> vals (l_eval cfg env n e).
Proof.
  induction n as [n IHn] using (well_founded_induction Wf_nat.lt_wf). intros e.
  induction e as [e IH] using pexpr_children_ind. intros NT.
  assert (H1 : forall c, In c (first e) -> vals (l_eval cfg env n c)).
  { intros c Hc. apply IH; [apply first_children; exact Hc|]. intros d S. apply NT. eapply starts_first; eassumption. }
  assert (H2 : forall c s a, is_value (l_eval cfg env n c s (Now a))) by (intros c; apply nvals_eval).
  assert (HS : forall l, (match l with [] => True | c :: _ => vals (l_eval cfg env n c) end) ->
     head_vals (map (l_eval cfg env n) l)).
  { intros l Hl. split.
    - apply Forall_forall. intros P I. apply in_map_iff in I as (c & <- & _). intros s a. apply H2.
    - destruct l; [exact I | apply Hl]. }
  destruct e; simpl in H1;
    try (assert (X := H1 _ (or_introl eq_refl)));
    try (assert (Y := H1 _ (or_intror (or_introl eq_refl)))).
  all: try (exfalso; eapply NT; [apply starts_here | constructor]).
  all: try (assert (HH : head_vals (map (l_eval cfg env n) l));
            [apply HS; destruct l; [exact I | apply H1; left; reflexivity]|]).
  all: try (destruct n as [|n']; cbn [l_eval]; first
    [ intros s a; apply value_evaluated | apply vals_return | apply vals_fail | apply vals_one_char
    | apply vals_accept_when; exact X | apply vals_change_error_message; exact X | apply vals_transform; exact X
    | apply vals_transform_error; exact X | apply vals_transform_error_message; exact X | apply vals_always; exact X
    | apply vals_look_ahead; exact X | apply vals_if; exact X
    | apply vals_fail_at_first_char_expected; exact X | apply vals_keyword
    | apply vals_foldl; exact X | apply vals_guard; [exact X | apply vals_foldl; exact X]
    | apply vals_foldl_reject_incomplete; exact X
    | apply vals_guard; [exact X | apply vals_foldl_reject_incomplete; exact X]
    | apply vals_foldr_start_with_parser; [exact X | exact Y]
    | apply vals_foldr_start_with_parser; [exact X | apply vals_return]
    | apply vals_guard; [exact X | apply vals_foldr_start_with_parser; [exact X | apply vals_return]]
    | apply vals_foldr_reject_incomplete; exact X
    | apply vals_guard; [exact X | apply vals_foldr_reject_incomplete; exact X]
    | apply vals_iterate; exact X
    | apply vals_sequence; exact HH | apply vals_sequence_apply; exact HH
    | apply vals_nth_of_c; exact HH | apply vals_first_of; exact HH | apply vals_last_of; exact HH
    | apply vals_one_of_c | apply vals_one_char_except_c
    | apply vals_middle_of; [exact X | intros s a; apply H2 | intros s a; apply H2]
    | apply vals_entire_input; exact X ]).
  - destruct n as [|n']; cbn [l_eval]; [intros s a; constructor|].
    intros s a. apply (IHn n' (PeanoNat.Nat.lt_succ_diag_r n')). intros d S. apply NT. apply starts_ref. exact S.
  - assert (R : vals (l_foldl_start_with_parser n (l_eval cfg env n e1) (l_eval cfg env n e2) f)).
    { apply (vals_then _ (fun v => l_foldl n (l_eval cfg env n e1) (type_of v) f) X).
      intros v s a. destruct (loose cfg env n e1) as [N _]. rewrite (simn_foldl _ _ _ f N). apply value_evaluated. }
    destruct n; exact R.
  - assert (R : vals (l_foldl_reject_incomplete_start_with_parser n (l_eval cfg env n e1) (l_eval cfg env n e2) f)).
    { apply (vals_then _ (fun v => l_foldl_reject_incomplete n (l_eval cfg env n e1) (type_of v) f) X).
      intros v s a. destruct (loose cfg env n e1) as [N _]. rewrite (simn_foldl_reject_incomplete _ _ _ f N).
      apply value_evaluated. }
    destruct n; exact R.
  - assert (R := vals_one_of cfg _ (Forall_vals n l H1)). destruct n; exact R.
Qed.

End Values.

(** ** The statements *)

Lemma means_iff : forall c o, means c o <-> strip c = o.
Proof. intros c o. split; [apply means_inv | intros <-; apply means_strip]. Qed.

Lemma at_value : forall cfg env n e s a,
  means (l_eval cfg env n e s (Now a)) (eval cfg env n e s a)
  /\ is_value (l_eval cfg env n e s (Now a)).
Proof.
  intros. destruct (loose cfg env n e) as [N _]. rewrite N. split.
  - apply means_iff. apply strip_evaluated.
  - apply value_evaluated.
Qed.

Lemma at_metafunction : forall cfg env n e s a, no_position_test env e ->
  means (l_eval cfg env n e s (Later a)) (eval cfg env n e s a).
Proof.
  intros cfg env n e s a H. destruct (strict cfg env n e H) as [_ L].
  destruct (L s a) as [E|[E _]]; [apply means_iff; exact E | discriminate].
Qed.

Lemma never_different : forall cfg env n e s a,
  l_eval cfg env n e s (Later a) = CIllformed
  \/ means (l_eval cfg env n e s (Later a)) (eval cfg env n e s a).
Proof.
  intros cfg env n e s a. destruct (loose cfg env n e) as [_ L].
  destruct (L s a) as [E|[_ E]]; [right; apply means_iff; exact E | left; exact E].
Qed.

Lemma position_test : forall cfg env n p s a, no_position_test env p ->
  l_eval cfg env n (PFailAtFirstCharExpected p) s (Later a) = CIllformed
  <-> (exists m q, eval cfg env n p s a = Reject m q) \/ eval cfg env n p s a = Illformed.
Proof.
  intros cfg env n p s a H. assert (M := at_metafunction cfg env n p s a H).
  assert (E : l_eval cfg env n (PFailAtFirstCharExpected p) s (Later a)
              = l_fail_at_first_char_expected (l_eval cfg env n p) s (Later a))
    by (destruct n; reflexivity).
  rewrite E. clear E. unfold l_fail_at_first_char_expected. apply means_inv in M.
  destruct (l_eval cfg env n p s (Later a)); simpl in M; rewrite <- M; simpl;
    (split; [intros X; try discriminate X; eauto | intros [(m' & q & X)|X]; congruence]).
Qed.

Lemma accessors : forall t c o, stands_for t c -> means c o ->
  (is_error t = Some true <-> exists m p, o = Reject m p)
  /\ (is_error t = Some false <-> exists r s p, o = Accept r s p)
  /\ (forall r, get_result t = Some r <-> exists s p, o = Accept r s p)
  /\ (forall s, get_remaining t = Some s <-> exists r p, o = Accept r s p)
  /\ (forall p, get_position t = Some p <-> (exists r s, o = Accept r s p) \/ exists m, o = Reject m p)
  /\ (forall m, get_message t = Some m <-> exists p, o = Reject m p).
Proof.
  intros t c o T M. apply means_inv in M. subst o.
  assert (E : exists c', type_of_result t = c' /\ strip c' = strip c).
  { destruct T as [-> | ->]; simpl; eexists; (split; [reflexivity|]); [apply strip_type | reflexivity]. }
  destruct E as (c' & E & <-). unfold is_error, get_result, get_remaining, get_position, get_message.
  rewrite E. clear. destruct c'; simpl; repeat split; intros;
    repeat match goal with
           | H : exists _, _ |- _ => destruct H
           | H : _ \/ _ |- _ => destruct H
           end; try discriminate; try congruence;
    repeat match goal with H : Some _ = Some _ |- _ => injection H as <- end; eauto.
  all: try (match goal with H : _ = _ |- _ => injection H; intros; subst; reflexivity end).
Qed.

Lemma accessors_agree : forall t c o, stands_for t c -> means c o ->
  is_error t = Base.is_error o /\ get_result t = Base.get_result o /\ get_remaining t = Base.get_remaining o
  /\ get_position t = Base.get_position o /\ get_message t = Base.get_message o.
Proof.
  intros t c o T M. apply means_inv in M. subst o.
  unfold is_error, get_result, get_remaining, get_position, get_message.
  destruct T as [-> | ->]; destruct c; repeat split.
Qed.

Lemma unless_error_spec : forall t c o d d' o',
  stands_for t c -> means c o -> stands_for d d' -> means d' o' ->
  (forall m p, o = Reject m p -> means (unless_error t d) o)
  /\ (forall r s p, o = Accept r s p -> means (unless_error t d) o').
Proof.
  intros t c o d d' o' T M D M'. apply means_inv in M. apply means_inv in M'. subst o o'.
  assert (E : forall x y, stands_for x y -> strip (type_of_result x) = strip y).
  { intros x y [-> | ->]; [apply strip_type | reflexivity]. }
  assert (E1 := E t c T). assert (E2 := E d d' D). unfold unless_error, is_error.
  split.
  - intros m p H. rewrite means_iff. rewrite H in E1. rewrite H.
    destruct (type_of_result t) eqn:X; simpl in *; try discriminate. exact E1.
  - intros r s p H. rewrite means_iff. rewrite H in E1.
    destruct (type_of_result t) eqn:X; simpl in *; try discriminate. exact E2.
Qed.

Lemma type_spec : forall c o, means c o ->
  means (type c) o /\ is_value (type c) /\ type (type c) = type c.
Proof.
  intros c o M. apply means_inv in M. subst o. rewrite means_iff. rewrite strip_type.
  split; [reflexivity|]. destruct c; split; constructor.
Qed.

Lemma positions_lazy : forall x p c, stands_for x p ->
  get_line x = line p /\ get_col x = col p /\ get_prev_char x = prev p
  /\ l_next_char x c = mkpos (line p) (col p + 1) c
  /\ l_next_line x c = mkpos (line p + 1) 1 c.
Proof. intros x p c [-> | ->]; repeat split. Qed.

Lemma pos_equal_eq : forall p q, pos_equal_to p q = true <-> p = q.
Proof.
  intros [l c k] [l' c' k']. unfold pos_equal_to. cbn [line col prev].
  rewrite !andb_true_iff, !Z.eqb_eq. split; [intros ((-> & ->) & ->); reflexivity | intros E; injection E as -> -> ->; auto].
Qed.

Lemma equal_to_lazy : forall x y b,
  l_equal_to x y = Some b <-> exists p q, x = Now p /\ y = Now q /\ (b = true <-> p = q).
Proof.
  intros x y b. split.
  - destruct x as [p|p], y as [q|q]; try discriminate. intros H. injection H as <-.
    exists p, q. split; [reflexivity|]. split; [reflexivity | apply pos_equal_eq].
  - intros (p & q & -> & -> & E). cbn. rewrite <- pos_equal_eq in E. f_equal.
    destruct (pos_equal_to p q), b; intuition congruence.
Qed.
