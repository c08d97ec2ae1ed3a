(** Lemmas for the documented equivalences (C20, C21). *)

From Coq Require Import ZArith List Bool Lia.
From Verif Require Import Base Util Combinators Variadic Parsers Spec
  Proofs_Pos Proofs_Fold Proofs_Variadic Proofs_Parsers Proofs_Parsers2 Proofs_Final3.
Import ListNotations.
Open Scope Z_scope.

(** ** The documented right-hand sides *)

(** doc/if_.qbk *)
Definition doc_if (cfg : config) (p : pfun) (t f : value) : pfun :=
  one_of cfg [last_of cfg [p; return_ t]; return_ f].

(** doc/one_of_c.qbk *)
Definition doc_one_of_c (cfg : config) (cs : list char) : pfun :=
  one_of cfg (map lit_c cs).

(** doc/middle_of.qbk *)
Definition doc_middle_of (cfg : config) (p1 p2 p3 : pfun) : pfun :=
  nth_of_c cfg 1 [p1; p2; p3].

(** doc/token.qbk *)
Definition doc_token (cfg : config) (n : nat) (p : pfun) : pfun :=
  first_of cfg [p; spaces n].

(** doc/accept_when.qbk *)
Definition doc_accept_when (p : pfun) (pr : pred1) (m : msg) : pfun := fun s ps =>
  match p s ps with
  | Accept r s' ps' =>
      match pr r with
      | Some true => p s ps
      | Some false => fail m s ps
      | None => Illformed
      end
  | Reject _ _ => fail m s ps
  | o => o
  end.

(** doc/lit.qbk *)
Definition doc_lit (c : char) : pfun :=
  accept_when one_char (is_char_c c) (literal_expected c).

(** doc/alphanum.qbk *)
Definition doc_alphanum (cfg : config) : pfun := one_of cfg [digit; letter].

(** doc/int_.qbk: [plus<times<_2, int_<10>>, _1>] *)
Definition doc_int_op : mf2 := fun a b =>
  match as_int a, as_int b with
  | Some x, Some y =>
      if int_ok (y * 10) && int_ok (y * 10 + x) then Some (VInt (y * 10 + x)) else None
  | _, _ => None
  end.
Definition doc_int (n : nat) : pfun := foldl1 n digit_val (Some (VInt 0)) doc_int_op.

(** doc/repeated.qbk: [push_back<_2, _1>] *)
Definition doc_repeated (n : nat) (p : pfun) : pfun :=
  foldl n p (Some (VSeq [])) (fun a b => push_back b a).

(** doc/sequence_apply.qbk: [return_<t<...>>::apply<s, pos>] *)
Definition doc_sequence_apply (cfg : config) (t : list value -> value)
  (l : list pfun) : pfun := fun s ps =>
  match sequence cfg l s ps with
  | Accept (VSeq rs) _ _ => return_ (t rs) s ps
  | o => o
  end.

(** ** if_ *)

Lemma if_exact : forall cfg p t f, fits_sequence cfg 2 -> fits_one_of cfg 2 ->
  same_parser (if_ p t f) (doc_if cfg (look_ahead p) t f).
Proof.
  intros cfg p t f F1 F2 s ps. unfold doc_if.
  rewrite <- (optional_one_of cfg _ f F2 s ps). unfold optional, if_.
  rewrite last_of_2 by exact F1. unfold look_ahead, return_. destruct (p s ps); reflexivity.
Qed.

Lemma if_doc_verdict : forall cfg p t f s ps, fits_sequence cfg 2 -> fits_one_of cfg 2 ->
  get_result (if_ p t f s ps) = get_result (doc_if cfg p t f s ps).
Proof.
  intros cfg p t f s ps F1 F2. unfold doc_if.
  rewrite <- (optional_one_of cfg _ f F2 s ps). unfold optional, if_.
  rewrite last_of_2 by exact F1. unfold return_. destruct (p s ps); reflexivity.
Qed.

(** ** one_of_c *)

Lemma one_of_c_doc_98 : forall cfg cs, cfg_std cfg = Std98 ->
  (length cs < limit_one_of cfg)%nat ->
  same_parser (one_of_c cfg cs) (doc_one_of_c cfg cs).
Proof.
  intros cfg cs E L s ps. unfold one_of_c, doc_one_of_c, one_of. rewrite E.
  unfold one_of_c_98. apply Nat.ltb_lt in L. rewrite L. reflexivity.
Qed.

Lemma one_of_11_lits_nonempty : forall cs c s ps,
  one_of_11 (map lit_c cs) (c :: s) ps
  = if existsb (Z.eqb c) cs then Accept (VChar c) s (next_pos c ps)
    else Reject none_of_the_expected_cases_found ps.
Proof.
  induction cs as [|d cs IH]; intros c s ps; [reflexivity|].
  cbn [map one_of_11 existsb]. rewrite IH.
  replace (lit_c d (c :: s) ps) with
    (if c =? d then Accept (VChar c) s (next_pos c ps) else Reject (literal_expected d) ps).
  2:{ unfold lit_c, accept_when, change_error_message, one_char, is_char_c. cbn.
      destruct (c =? d); reflexivity. }
  destruct (c =? d); cbn [orb].
  - destruct (existsb (Z.eqb c) cs); reflexivity.
  - destruct (existsb (Z.eqb c) cs); [reflexivity|].
    unfold later_result. rewrite pos_less_irrefl. reflexivity.
Qed.

Lemma one_of_11_lits_empty : forall cs ps,
  one_of_11 (map lit_c cs) [] ps = Reject none_of_the_expected_cases_found ps.
Proof.
  induction cs as [|d cs IH]; intros ps; [reflexivity|].
  cbn [map one_of_11]. rewrite IH. cbn. unfold later_result. rewrite pos_less_irrefl.
  reflexivity.
Qed.

Lemma or_c_existsb : forall c cs, or_c (map (fun d => c =? d) cs) = existsb (Z.eqb c) cs.
Proof. induction cs as [|d cs IH]; cbn; [reflexivity|]. destruct (c =? d); auto. Qed.

Lemma one_of_c_doc_11 : forall cfg cs s ps, cfg_std cfg <> Std98 ->
  (s <> [] -> one_of_c cfg cs s ps = doc_one_of_c cfg cs s ps)
  /\ one_of_c cfg cs [] ps = Reject unexpected_end_of_input ps
  /\ doc_one_of_c cfg cs [] ps = Reject none_of_the_expected_cases_found ps.
Proof.
  intros cfg cs s ps E.
  assert (D : forall s0, doc_one_of_c cfg cs s0 ps = one_of_11 (map lit_c cs) s0 ps).
  { intros s0. unfold doc_one_of_c, one_of. destruct (cfg_std cfg); congruence. }
  assert (X : forall s0, one_of_c cfg cs s0 ps = one_of_c_11 cs s0 ps).
  { intros s0. unfold one_of_c. destruct (cfg_std cfg); try congruence.
    unfold one_of_c_14, one_of_c_11, accept_when, one_char. destruct s0; [reflexivity|].
    rewrite any_of_c_14_eq. reflexivity. }
  rewrite !D, !X. split; [|split].
  - intros N. destruct s as [|c s]; [congruence|].
    rewrite one_of_11_lits_nonempty. unfold one_of_c_11, accept_when, one_char, any_of_c_11.
    cbn. rewrite or_c_existsb. destruct (existsb (Z.eqb c) cs); reflexivity.
  - reflexivity.
  - apply one_of_11_lits_empty.
Qed.

(** ** middle_of *)

Lemma middle_of_doc : forall cfg p1 p2 p3, fits_sequence cfg 3 ->
  same_parser_but_message (middle_of cfg p1 p2 p3) (doc_middle_of cfg p1 p2 p3).
Proof.
  intros cfg p1 p2 p3 F s ps. rewrite middle_of_spec by exact F. unfold doc_middle_of.
  rewrite nth_of_c_cfg by exact F. cbn.
  destruct (p1 s ps) as [r1 s1 ps1| | |]; try reflexivity.
  destruct (p2 s1 ps1) as [r2 s2 ps2| | |]; try reflexivity.
  destruct (p3 s2 ps2) as [r3 s3 ps3| | |]; reflexivity.
Qed.

(** ** token *)

Lemma token_exact : forall cfg n p, fits_sequence cfg 2 ->
  forall s ps, (length s < n)%nat ->
    (forall r s1 ps1, p s ps = Accept r s1 ps1 -> (length s1 <= length s)%nat) ->
    token cfg n p s ps = first_of cfg [p; optional (spaces n) (VSeq [])] s ps.
Proof.
  intros cfg n p F s ps L G. unfold token. rewrite !first_of_2 by exact F.
  destruct (p s ps) as [r s1 ps1| | |] eqn:E; try reflexivity.
  specialize (G _ _ _ eq_refl). unfold optional, spaces, repeated1, foldl1.
  fold (repeated n space).
  destruct (space s1 ps1) as [c s2 ps2|m pe| |] eqn:Es.
  - destruct (repeated_space_finishes n s1 ps1) as (v & s' & ps' & R); [lia|].
    rewrite R. reflexivity.
  - destruct n as [|n]; [lia|]. unfold repeated. cbn [foldl]. rewrite Es. reflexivity.
  - destruct (class_finishes _ _ _ _ space_class space_dec s1 ps1) as [(a & b & c & X)|(a & b & X)];
      congruence.
  - destruct (class_finishes _ _ _ _ space_class space_dec s1 ps1) as [(a & b & c & X)|(a & b & X)];
      congruence.
Qed.

(** Without the assumption about the depth bound and about [p]. *)
Lemma token_doc_spaces : forall cfg n p s ps r s1 ps1, fits_sequence cfg 2 ->
  p s ps = Accept r s1 ps1 -> ~ not_starting_with space_char s1 ->
  token cfg n p s ps = doc_token cfg n p s ps.
Proof.
  intros cfg n p s ps r s1 ps1 F E N. unfold token, doc_token.
  rewrite !first_of_2 by exact F. rewrite E.
  unfold spaces, repeated1, foldl1. fold (repeated n space).
  destruct (space s1 ps1) as [c s2 ps2|m pe| |] eqn:Es; try reflexivity.
  - exfalso. apply N.
    apply (class_reject _ _ _ _ space_class space_dec s1 ps1). exists m, pe. exact Es.
  - destruct (class_finishes _ _ _ _ space_class space_dec s1 ps1) as [(a & b & c & X)|(a & b & X)];
      congruence.
  - destruct (class_finishes _ _ _ _ space_class space_dec s1 ps1) as [(a & b & c & X)|(a & b & X)];
      congruence.
Qed.

(** ... and where no white space follows the documented version rejects. *)
Lemma token_doc_nospaces : forall cfg n p s ps r s1 ps1, fits_sequence cfg 2 -> (0 < n)%nat ->
  p s ps = Accept r s1 ps1 -> not_starting_with space_char s1 ->
  token cfg n p s ps = Accept r s1 ps1 /\ rejects (doc_token cfg n p) s ps.
Proof.
  intros cfg n p s ps r s1 ps1 F L E N. unfold token, doc_token, rejects.
  rewrite !first_of_2 by exact F. rewrite E.
  assert (R : rejects space s1 ps1) by (apply (class_reject _ _ _ _ space_class space_dec); exact N).
  destruct R as (m & pe & R). destruct n as [|n]; [lia|]. split.
  - unfold repeated. cbn [foldl]. rewrite R. reflexivity.
  - exists m, pe. unfold spaces, repeated1, foldl1. rewrite R. reflexivity.
Qed.

(** ** accept_when *)

Lemma accept_when_doc : forall p pr m s ps,
  (forall m' pe, p s ps = Reject m' pe ->
     accept_when p pr m s ps = Reject m' pe /\ doc_accept_when p pr m s ps = Reject m ps)
  /\ (~ rejects p s ps -> accept_when p pr m s ps = doc_accept_when p pr m s ps).
Proof.
  intros p pr m s ps. unfold accept_when, doc_accept_when, rejects, fail. split.
  - intros m' pe E. rewrite E. auto.
  - intros N. destruct (p s ps) as [r s1 ps1|m' pe| |] eqn:E; try reflexivity.
    exfalso. apply N. eauto.
Qed.

(** ** lit *)

Lemma lit_doc : forall c s ps,
  (s <> [] -> lit_c c s ps = doc_lit c s ps)
  /\ lit_c c [] ps = Reject (literal_expected c) ps
  /\ doc_lit c [] ps = Reject unexpected_end_of_input ps.
Proof.
  intros c s ps. split; [|split; reflexivity].
  intros N. destruct s as [|d s]; [congruence|]. reflexivity.
Qed.

(** ** alphanum *)

Lemma alphanum_doc_11 : forall cfg, cfg_std cfg <> Std98 ->
  same_parser (alphanum cfg) (doc_alphanum cfg).
Proof.
  intros cfg E s ps. unfold alphanum, doc_alphanum, one_of.
  assert (LR : forall m1 m2, later_result m1 ps m2 ps = Reject m2 ps).
  { intros m1 m2. unfold later_result. rewrite pos_less_irrefl. reflexivity. }
  assert (H : one_of_11 [letter; digit] s ps = one_of_11 [digit; letter] s ps).
  { destruct letter_class as (A1 & A2 & A3). destruct digit_class as (B1 & B2 & B3).
    cbn [one_of_11]. unfold fail. destruct s as [|c s].
    - rewrite A3, B3, !LR. reflexivity.
    - destruct (letter_dec c) as [L|L]; destruct (digit_dec c) as [D|D].
      + unfold letter_char, digit_char in *. lia.
      + rewrite (A1 c s ps (next_pos c ps) L) by (apply walk1; reflexivity).
        rewrite (B2 c s ps D). rewrite LR. reflexivity.
      + rewrite (A2 c s ps L).
        rewrite (B1 c s ps (next_pos c ps) D) by (apply walk1; reflexivity).
        rewrite LR. reflexivity.
      + rewrite (A2 c s ps L), (B2 c s ps D). rewrite !LR. reflexivity. }
  destruct (cfg_std cfg); [congruence|exact H|exact H].
Qed.

Lemma alphanum_doc : forall cfg, fits_one_of cfg 2 ->
  same_parser_but_message (alphanum cfg) (doc_alphanum cfg).
Proof.
  intros cfg F.
  destruct (cfg_std cfg) eqn:E.
  - intros s ps.
    set (c11 := mkconfig Std11 0 0 0).
    pose proof (one_of_std cfg c11 [letter; digit] E) as A.
    pose proof (one_of_std cfg c11 [digit; letter] E) as B.
    specialize (A ltac:(discriminate) (F E) s ps).
    specialize (B ltac:(discriminate) (F E) s ps).
    pose proof (alphanum_doc_11 c11 ltac:(discriminate) s ps) as C.
    unfold alphanum, doc_alphanum in *. rewrite C in A.
    destruct (one_of cfg [letter; digit] s ps), (one_of c11 [digit; letter] s ps),
      (one_of cfg [digit; letter] s ps); cbn in *; congruence.
  - intros s ps. rewrite alphanum_doc_11 by congruence. destruct (doc_alphanum cfg s ps); reflexivity.
  - intros s ps. rewrite alphanum_doc_11 by congruence. destruct (doc_alphanum cfg s ps); reflexivity.
Qed.

(** ** last_of *)

Lemma last_of_doc : forall cfg l s ps, fits_sequence cfg (length l) ->
  nth_of_c cfg (Z.of_nat (length l)) l s ps
  = Reject (index_out_of_range 0 (Z.of_nat (length l) - 1) (Z.of_nat (length l))) ps.
Proof. intros cfg l s ps F. apply nth_of_cfg_out_of_range; auto. right. lia. Qed.

(** ** int_ and repeated *)

Lemma int_exact : forall n, same_parser (int_ n) (foldl1 n digit_val (Some (VInt 0)) (swap doc_int_op)).
Proof.
  intros n. intros s ps. unfold int_, foldl1.
  assert (H : forall k st s1 ps1, foldl k digit_val st next_digit s1 ps1
    = foldl k digit_val st (swap doc_int_op) s1 ps1).
  { induction k as [|k IH]; intros st s1 ps1; [reflexivity|]. cbn [foldl].
    destruct (digit_val s1 ps1) as [r s2 ps2| | |]; auto. destruct st as [v|]; auto.
    rewrite IH. f_equal. unfold next_digit, swap, doc_int_op.
    destruct (as_int v), (as_int r); reflexivity. }
  destruct (digit_val s ps); auto.
Qed.

Lemma repeated_exact : forall n p,
  same_parser (repeated n p) (foldl n p (Some (VSeq [])) (swap (fun a b => push_back b a))).
Proof. intros n p s ps. reflexivity. Qed.

(** The documented version only works on inputs the element rejects at once, or
    when the element results are sequences themselves. *)
Lemma doc_repeated_illformed : forall n p s ps r s1 ps1 m pe,
  p s ps = Accept r s1 ps1 -> p s1 ps1 = Reject m pe ->
  (forall l, r <> VSeq l) -> (2 <= n)%nat ->
  doc_repeated n p s ps = Illformed.
Proof.
  intros n p s ps r s1 ps1 m pe E1 E2 N L. destruct n as [|[|n]]; try lia.
  unfold doc_repeated. cbn [foldl]. rewrite E1, E2.
  destruct r; try reflexivity. exfalso. eapply N. reflexivity.
Qed.

(** ** sequence_apply *)

Lemma sequence_apply_doc : forall cfg t l s ps,
  (1 <= length l < limit_sequence cfg)%nat ->
  (forall v s' ps', sequence_apply cfg t l s ps = Accept v s' ps' ->
     doc_sequence_apply cfg t l s ps = Accept v s ps
     /\ exists rs, sequence cfg l s ps = Accept (VSeq rs) s' ps' /\ v = t rs)
  /\ (~ accepts (sequence_apply cfg t l) s ps ->
      sequence_apply cfg t l s ps = doc_sequence_apply cfg t l s ps).
Proof.
  intros cfg t l s ps L. unfold accepts. rewrite sequence_apply_spec by exact L.
  unfold doc_sequence_apply, return_.
  assert (V : forall v s' ps', sequence cfg l s ps = Accept v s' ps' -> exists rs, v = VSeq rs).
  { intros v s' ps' E.
    assert (F : fits_sequence cfg (length l)) by (intros _; lia).
    assert (N : l <> []) by (intros Z; rewrite Z in L; cbn in L; lia).
    apply sequence_cfg_accept in E; auto. destruct E as (rs & E & _). eauto. }
  destruct (sequence cfg l s ps) as [v s1 ps1|m pe| |] eqn:E.
  - destruct (V _ _ _ eq_refl) as (rs & ->). split.
    + intros v' s' ps' X. inversion X; subst. split; auto. exists rs. auto.
    + intros X. exfalso. apply X. eauto.
  - split; [intros; discriminate|reflexivity].
  - split; [intros; discriminate|reflexivity].
  - split; [intros; discriminate|reflexivity].
Qed.
