(** C33, C34, C35, C42: compile-time strings and the generated string headers. *)

From Coq Require Import ZArith List Bool Lia Sorted.
From Verif Require Import Base Spec Strings Proofs_Strings Proofs_Macro.
Import ListNotations.
Open Scope Z_scope.

(** ** C33: the variadic string is a sequence of characters *)

Theorem C33_access : forall (s : str) (n : Z),
  size_11 s = Z.of_nat (length s) /\
  (0 <= n -> at_c_11 s n = nth_error s (Z.to_nat n)) /\
  (n < 0 \/ Z.of_nat (length s) <= n -> at_c_11 s n = None).
Proof.
  intros s n. split; [reflexivity|]. rewrite at_c_11_spec.
  split; intro H; destruct (Z.ltb_spec n 0); try lia; auto.
  apply nth_error_None. lia.
Qed.

Example C33_access_example :
  size_11 (text "abc") = 3 /\ at_c_11 (text "abc") 2 = Some 99 /\
  at_c_11 (text "abc") 3 = None /\ at_c_11 (text "abc") (-1) = None.
Proof. now vm_compute. Qed.

(** Pushing and popping at both ends; popping from the empty string is
    ill-formed. *)
Theorem C33_push_pop : forall (s : str) (c : char),
  pop_front_11 (push_front_c_11 s c) = Some s /\
  pop_back_11 (push_back_c_11 s c) = Some s /\
  (forall n, 0 <= n -> at_c_11 (push_front_c_11 s c) (n + 1) = at_c_11 s n) /\
  at_c_11 (push_front_c_11 s c) 0 = Some c /\
  (forall n, n < size_11 s -> at_c_11 (push_back_c_11 s c) n = at_c_11 s n) /\
  at_c_11 (push_back_c_11 s c) (size_11 s) = Some c /\
  size_11 (push_front_c_11 s c) = size_11 s + 1 /\
  size_11 (push_back_c_11 s c) = size_11 s + 1 /\
  pop_front_11 [] = None /\ pop_back_11 [] = None /\
  size_11 (clear_11 s) = 0.
Proof.
  intros s c. unfold push_back_c_11, push_front_c_11, size_11.
  split; [reflexivity|]. split; [apply pop_back_11_app|].
  split; [|split; [reflexivity|split; [|split; [|split; [cbn [length]; lia|split]]]]].
  - intros n Hn. rewrite !at_c_11_spec.
    destruct (Z.ltb_spec (n + 1) 0), (Z.ltb_spec n 0); try lia.
    replace (Z.to_nat (n + 1)) with (S (Z.to_nat n)) by lia. reflexivity.
  - intros n Hn. rewrite !at_c_11_spec. destruct (Z.ltb_spec n 0); [reflexivity|].
    apply nth_error_app1. lia.
  - rewrite at_c_11_spec. destruct (Z.ltb_spec (Z.of_nat (length s)) 0); [lia|].
    rewrite Nat2Z.id, nth_error_app2, Nat.sub_diag by lia. reflexivity.
  - rewrite app_length. cbn [length]. lia.
  - repeat split.
Qed.

Example C33_push_pop_example :
  pop_back_11 (text "hello") = Some (text "hell") /\
  pop_front_11 (text "hello") = Some (text "ello") /\
  push_back_c_11 (text "hell") 111 = text "hello" /\
  push_front_c_11 (text "ello") 104 = text "hello".
Proof. now vm_compute. Qed.

(** The result of every non-empty [pop] is determined by the pushes. *)
Theorem C33_pop_exact : forall (s t : str),
  (pop_front_11 s = Some t <-> exists c, s = push_front_c_11 t c) /\
  (pop_back_11 s = Some t <-> exists c, s = push_back_c_11 t c).
Proof.
  intros s t. split; split.
  - destruct s as [|c s]; cbn; intro H; [discriminate|]. injection H as <-. now exists c.
  - intros [c ->]. reflexivity.
  - intro H. destruct s as [|c s] using rev_ind; [discriminate|].
    rewrite pop_back_11_app in H. injection H as <-. now exists c.
  - intros [c ->]. apply pop_back_11_app.
Qed.

Example C33_pop_exact_example : exists c, text "ab" = push_back_c_11 (text "a") c.
Proof. apply C33_pop_exact. reflexivity. Qed.

Theorem C33_equal_concat_c_str : forall (s t : str),
  (equal_to_11 s t = true <-> s = t) /\
  size_11 (concat_11 s t) = size_11 s + size_11 t /\
  (forall n, n < size_11 s -> at_c_11 (concat_11 s t) n = at_c_11 s n) /\
  (forall n, 0 <= n -> at_c_11 (concat_11 s t) (size_11 s + n) = at_c_11 t n) /\
  c_str_11 s = s ++ [0].
Proof.
  intros s t. unfold equal_to_11, concat_11, size_11.
  split; [apply same_chars_iff|]. split; [rewrite app_length; lia|].
  split; [|split].
  - intros n Hn. rewrite !at_c_11_spec. destruct (Z.ltb_spec n 0); [reflexivity|].
    apply nth_error_app1. lia.
  - intros n Hn. rewrite !at_c_11_spec.
    destruct (Z.ltb_spec (Z.of_nat (length s) + n) 0), (Z.ltb_spec n 0); try lia.
    rewrite nth_error_app2 by lia. f_equal. lia.
  - now destruct s.
Qed.

Example C33_equal_concat_c_str_example :
  equal_to_11 (text "ab") (text "ab") = true /\ equal_to_11 (text "ab") (text "abc") = false /\
  concat_11 (text "ab") (text "cd") = text "abcd" /\
  c_str_11 (text "ab") = [97; 98; 0] /\ c_str_11 [] = [0].
Proof. now vm_compute. Qed.

(** Iterators: going from [begin] to [end] visits the characters in order;
    [advance], [distance], [next], [prior] and [deref] agree with indices. *)
Theorem C33_iteration : forall (s : str) (n : nat), (length s <= n)%nat ->
  iterate_chars same_chars at_c_11 n (begin_11 s) (end_11 s) = Some s.
Proof. exact iterate_11. Qed.

Example C33_iteration_example :
  iterate_chars same_chars at_c_11 7 (begin_11 (text "parser")) (end_11 (text "parser"))
  = Some (text "parser").
Proof. apply C33_iteration. vm_compute. lia. Qed.

Theorem C33_iterators : forall (s t : str) (j k : Z),
  it_deref at_c_11 (it_advance (begin_11 s) k) = at_c_11 s k /\
  it_distance same_chars (begin_11 s) (end_11 s) = Some (size_11 s) /\
  it_distance same_chars (it_advance (begin_11 s) j) (it_advance (begin_11 s) k) = Some (k - j) /\
  it_prior (it_next (it_advance (begin_11 s) k)) = it_advance (begin_11 s) k /\
  (it_equal same_chars (it_advance (begin_11 s) j) (it_advance (begin_11 t) k) = true
    <-> s = t /\ j = k).
Proof.
  intros s t j k. unfold it_deref, it_distance, it_equal, it_advance, it_prior, it_next,
    begin_11, end_11; cbn [it_str it_pos]. rewrite !same_chars_refl.
  split; [reflexivity|]. split; [f_equal; lia|]. split; [f_equal; lia|].
  split; [f_equal; lia|].
  rewrite andb_true_iff, same_chars_iff, Z.eqb_eq. split; intros [-> H]; split; auto; lia.
Qed.

Example C33_iterators_example :
  it_deref at_c_11 (it_prior (end_11 (text "xyz"))) = Some 122 /\
  it_distance same_chars (begin_11 (text "xyz")) (end_11 (text "abc")) = None.
Proof. now vm_compute. Qed.

(** What the parsers see: [mpl::empty], [mpl::front] and [mpl::pop_front] of a
    string are those of the list of its characters. *)
Theorem C33_parser_view : forall s : str,
  match s with
  | [] => empty_11 s = Some true /\ front_11 s = None
  | c :: s' => empty_11 s = Some false /\ front_11 s = Some c /\ pop_front_11 s = Some s'
  end.
Proof. intro s. pose proof (view_11 s). destruct s; auto. Qed.

Example C33_parser_view_example :
  empty_11 (text "ab") = Some false /\ front_11 (text "ab") = Some 97 /\ empty_11 [] = Some true.
Proof. now vm_compute. Qed.

(** ** C34: BOOST_METAPARSE_STRING preserves every literal *)

Theorem C34_preserved : forall (limit : Z) (lit : str),
  limit <= 2048 -> Z.of_nat (length lit) <= limit ->
  metaparse_string shipped_limits limit lit = Some lit.
Proof.
  intros limit lit H1 H2.
  rewrite (metaparse_string_spec _ 2048);
    [|apply length_limits_good; lia|reflexivity].
  destruct (Z.leb_spec limit 2048), (Z.leb_spec (Z.of_nat (length lit)) limit); try lia.
  reflexivity.
Qed.

Example C34_preserved_example :
  metaparse_string shipped_limits 32 (text "11 + 2" ++ [0] ++ text "x") =
  Some (text "11 + 2" ++ [0] ++ text "x").
Proof. apply C34_preserved; vm_compute; discriminate. Qed.

Theorem C34_rejected : forall (limit : Z) (lit : str),
  2048 < limit \/ limit < Z.of_nat (length lit) ->
  metaparse_string shipped_limits limit lit = None.
Proof.
  intros limit lit H.
  rewrite (metaparse_string_spec _ 2048);
    [|apply length_limits_good; lia|reflexivity].
  destruct (Z.leb_spec limit 2048), (Z.leb_spec (Z.of_nat (length lit)) limit); try lia;
    reflexivity.
Qed.

Example C34_rejected_example :
  metaparse_string shipped_limits 32 (repeat 97 33) = None /\
  metaparse_string shipped_limits 4096 [] = None.
Proof. split; apply C34_rejected; vm_compute; auto. Qed.

(** A literal is never truncated or padded, whatever the headers were generated
    for. *)
Theorem C34_never_changed : forall (max step limit : Z) (lit s : str), 0 < step ->
  metaparse_string (length_limits max step) limit lit = Some s -> s = lit.
Proof.
  intros max step limit lit s Hstep H.
  destruct (Z_le_gt_dec max 1) as [Hm|Hm].
  - rewrite length_limits_nil in H by lia. discriminate.
  - rewrite (metaparse_string_spec _ _ _ _ (length_limits_good max step Hstep)
      (length_limits_max max step Hstep ltac:(lia))) in H.
    destruct (_ && _) in H; [congruence|discriminate].
Qed.

Example C34_never_changed_example :
  metaparse_string (length_limits 10 3) 7 (text "abcdefg") = Some (text "abcdefg").
Proof. reflexivity. Qed.

(** The size of the generated macro is not what bounds the literal. *)
Theorem C34_rounded_up_refuted : exists (limit n : Z) (lit : str),
  index_macro shipped_limits limit = Some n /\ Z.of_nat (length lit) <= n /\
  metaparse_string shipped_limits limit lit = None.
Proof.
  exists 32, 128, (repeat 97 33). split; [reflexivity|]. split; [vm_compute; discriminate|].
  apply C34_rejected. right. reflexivity.
Qed.

(** ** C35: the C++98 string agrees with the variadic string *)

(** [representable s]: the last character of [s] is not the filler. *)
Theorem C35_size_at : forall (lim : nat) (s : str) (n : Z),
  representable s -> (length s < lim)%nat ->
  size_98 (string_98 lim s) = Some (size_11 s) /\
  (n < size_11 s -> at_c_98 (string_98 lim s) n = at_c_11 s n) /\
  c_str_98 (string_98 lim s) = c_str_11 s.
Proof.
  intros lim s n Hs Hlen. unfold size_11. split; [|split].
  - rewrite size_98_padded by (auto; lia).
    destruct (Nat.ltb_spec (length s) lim); [reflexivity|lia].
  - intro Hn. rewrite at_c_98_padded, at_c_11_spec by lia.
    destruct (Z.leb_spec 0 n), (Z.ltb_spec n 0); try lia; [|reflexivity].
    destruct (Z.ltb_spec n (Z.of_nat lim)), (Z.ltb_spec n (Z.of_nat (length s))); try lia.
    reflexivity.
  - rewrite c_str_98_padded by (auto; lia). now destruct s.
Qed.

Example C35_size_at_example :
  size_98 (string_98 8 (text "abc")) = Some 3 /\ at_c_98 (string_98 8 (text "abc")) 1 = Some 98 /\
  c_str_98 (string_98 8 (text "abc")) = [97; 98; 99; 0].
Proof. now vm_compute. Qed.

Theorem C35_equal : forall (lim : nat) (s t : str),
  representable s -> representable t -> (length s <= lim)%nat -> (length t <= lim)%nat ->
  equal_to_98 (string_98 lim s) (string_98 lim t) = equal_to_11 s t.
Proof.
  intros lim s t Hs Ht Ls Lt. unfold equal_to_98, equal_to_11.
  destruct (same_chars s t) eqn:E.
  - apply same_chars_iff in E. subst. apply same_chars_refl.
  - destruct (same_chars (string_98 lim s) (string_98 lim t)) eqn:F; [|reflexivity].
    apply same_chars_iff in F. apply string_98_inj in F; auto. subst.
    now rewrite same_chars_refl in E.
Qed.

Example C35_equal_example :
  equal_to_98 (string_98 4 (text "ab")) (string_98 4 (text "abc")) = false /\
  equal_to_98 (string_98 4 (text "abcd")) (string_98 4 (text "abcd")) = true.
Proof. now vm_compute. Qed.

Theorem C35_iteration : forall (lim : nat) (s : str) (n : nat),
  representable s -> (length s < lim)%nat -> (length s <= n)%nat ->
  exists e, end_98 (string_98 lim s) = Some e /\
  iterate_chars same_chars at_c_98 n (begin_98 (string_98 lim s)) e = Some s.
Proof. exact iterate_98. Qed.

Example C35_iteration_example :
  exists e, end_98 (string_98 9 (text "parser")) = Some e /\
  iterate_chars same_chars at_c_98 6 (begin_98 (string_98 9 (text "parser"))) e
  = Some (text "parser").
Proof.
  apply C35_iteration; [|cbn; lia|cbn; lia].
  apply representable_chars. intros c H. cbn in H. unfold no_char. lia.
Qed.

(** Programs of updates: any number of pushes and pops in any order give the
    same string in both representations. *)
Inductive string_op : Type :=
  | PushBack (c : char) | PushFront (c : char) | PopBack | PopFront | Clear.

Definition step_11 (o : string_op) (s : str) : option str :=
  match o with
  | PushBack c => Some (push_back_c_11 s c)
  | PushFront c => Some (push_front_c_11 s c)
  | PopBack => pop_back_11 s
  | PopFront => pop_front_11 s
  | Clear => Some (clear_11 s)
  end.
Definition step_98 (lim : nat) (o : string_op) (l : list Z) : option (list Z) :=
  match o with
  | PushBack c => push_back_c_98 lim l c
  | PushFront c => Some (push_front_c_98 lim l c)
  | PopBack => pop_back_98 lim l
  | PopFront => Some (pop_front_98 l)
  | Clear => Some (clear_98 lim)
  end.
Fixpoint run_ops {A : Type} (step : string_op -> A -> option A) (ops : list string_op) (s : A)
  : option A :=
  match ops with
  | [] => Some s
  | o :: ops' => match step o s with Some s' => run_ops step ops' s' | None => None end
  end.

(** Only characters different from the filler are pushed. *)
Definition pushes_chars (o : string_op) : Prop :=
  match o with PushBack c | PushFront c => c <> no_char | _ => True end.
Definition is_push (o : string_op) : bool :=
  match o with PushBack _ | PushFront _ => true | _ => false end.
Definition pushes (ops : list string_op) : nat := length (filter is_push ops).

Lemma step_agrees : forall lim o s t, (forall c, In c s -> c <> no_char) -> pushes_chars o ->
  (length s < lim)%nat -> (length t < lim)%nat -> step_11 o s = Some t ->
  step_98 lim o (string_98 lim s) = Some (string_98 lim t) /\ (forall c, In c t -> c <> no_char).
Proof.
  intros lim o s t Hs Ho Ls Lt H.
  destruct o as [c|c| | |]; cbn [step_11 step_98 pushes_chars] in *.
  - injection H as <-. unfold push_back_c_11 in *. split.
    + apply push_back_98_padded; [now apply representable_chars|exact Ls].
    + intros d Hd. apply in_app_or in Hd. destruct Hd as [Hd|[<-|[]]]; auto.
  - injection H as <-. unfold push_front_c_11 in *. split.
    + f_equal. now apply push_front_98_padded.
    + intros d [<-|Hd]; auto.
  - apply C33_pop_exact in H. destruct H as [c ->]. unfold push_back_c_11 in *. split.
    + rewrite app_length in Ls. cbn in Ls.
      apply pop_back_98_padded; [now apply representable_chars|exact Ls].
    + intros d Hd. apply Hs. apply in_or_app. now left.
  - destruct s as [|c s]; [discriminate|]. injection H as <-. split.
    + f_equal. now apply pop_front_98_padded.
    + intros d Hd. apply Hs. now right.
  - injection H as <-. split; [reflexivity|]. intros d [].
Qed.

Lemma step_11_length : forall o s t, step_11 o s = Some t ->
  (length t <= length s + (if is_push o then 1 else 0))%nat.
Proof.
  intros o s t H. destruct o as [c|c| | |]; cbn [step_11 is_push] in *.
  - injection H as <-. unfold push_back_c_11. rewrite app_length. cbn. lia.
  - injection H as <-. cbn. lia.
  - apply C33_pop_exact in H. destruct H as [c ->]. unfold push_back_c_11.
    rewrite app_length. lia.
  - destruct s; [discriminate|]. injection H as <-. cbn. lia.
  - injection H as <-. cbn. lia.
Qed.

Theorem C35_updates : forall (lim : nat) (ops : list string_op) (s t : str),
  (forall c, In c s -> c <> no_char) -> (forall o, In o ops -> pushes_chars o) ->
  (length s + pushes ops < lim)%nat ->
  run_ops step_11 ops s = Some t ->
  run_ops (step_98 lim) ops (string_98 lim s) = Some (string_98 lim t).
Proof.
  intros lim. induction ops as [|o ops IH]; intros s t Hs Ho Hlen H; cbn [run_ops] in *.
  - congruence.
  - destruct (step_11 o s) as [s'|] eqn:E; [|discriminate].
    pose proof (step_11_length _ _ _ E) as L.
    assert (P : pushes (o :: ops) = ((if is_push o then 1 else 0) + pushes ops)%nat).
    { unfold pushes. cbn [filter]. now destruct (is_push o). }
    rewrite P in Hlen.
    destruct (step_agrees lim o s s') as [A B]; auto.
    + apply Ho. now left.
    + slia.
    + slia.
    + rewrite A. apply IH; auto.
      * intros o' Ho'. apply Ho. now right.
      * slia.
Qed.

Example C35_updates_example :
  run_ops step_11 [PushBack 99; PushFront 120; PopBack; PopFront; PushBack 100] (text "ab")
    = Some (text "abd") /\
  run_ops (step_98 8) [PushBack 99; PushFront 120; PopBack; PopFront; PushBack 100]
    (string_98 8 (text "ab")) = Some (string_98 8 (text "abd")).
Proof.
  split; [reflexivity|].
  apply C35_updates; try reflexivity.
  - intros c H. cbn in H. unfold no_char. lia.
  - intros o H. cbn in H. repeat destruct H as [<-|H]; cbn; unfold no_char; try lia; auto.
  - vm_compute. lia.
Qed.

(** What the parsers see of a C++98 string *)
Theorem C35_parser_view : forall (lim : nat) (s : str), representable s -> (length s < lim)%nat ->
  match s with
  | [] => empty_98 (string_98 lim s) = Some true
  | c :: s' =>
      empty_98 (string_98 lim s) = Some false /\
      front_98 (string_98 lim s) = Some c /\
      pop_front_98 (string_98 lim s) = string_98 lim s'
  end.
Proof. exact view_98. Qed.

Example C35_parser_view_example :
  empty_98 (string_98 4 (text "abc")) = Some false /\
  front_98 (string_98 4 (text "abc")) = Some 97 /\
  pop_front_98 (string_98 4 (text "abc")) = string_98 4 (text "bc").
Proof. now vm_compute. Qed.

(** Strings of exactly the limit: [size] and everything built on it is
    ill-formed, [push_front] loses the last character. *)
Theorem C35_full_length : forall (lim : nat) (s : str), representable s -> length s = lim ->
  size_98 (string_98 lim s) = None /\ empty_98 (string_98 lim s) = None /\
  pop_back_98 lim (string_98 lim s) = None /\
  (forall c, push_back_c_98 lim (string_98 lim s) c = None) /\
  (forall c d t, s = t ++ [d] -> push_front_c_98 lim (string_98 lim s) c = string_98 lim (c :: t)).
Proof.
  intros lim s Hs Hlen.
  assert (E : size_98 (string_98 lim s) = None).
  { rewrite size_98_padded by (auto; lia). destruct (Nat.ltb_spec (length s) lim); [lia|reflexivity]. }
  unfold empty_98, end_98, pop_back_98, push_back_c_98. rewrite E.
  repeat split. intros c d t ->. apply push_front_98_full.
  rewrite app_length in Hlen. exact Hlen.
Qed.

Example C35_full_length_example :
  size_98 (string_98 3 (text "abc")) = None /\
  push_front_c_98 3 (string_98 3 (text "abc")) 120 = string_98 3 (text "xab").
Proof. now vm_compute. Qed.

Theorem C35_full_length_refuted : exists (lim : nat) (s : str),
  representable s /\ (length s <= lim)%nat /\ size_98 (string_98 lim s) <> Some (size_11 s).
Proof.
  exists 3%nat, (text "abc"). split; [|split; [cbn; lia|discriminate]].
  apply representable_chars. intros c H. cbn in H. unfold no_char. lia.
Qed.

(** A string ending in the character with the value of [EOF] can not be told
    from the string without it. *)
Theorem C35_eof_refuted : exists (lim : nat) (s t : str),
  s <> t /\ (length s < lim)%nat /\ (length t < lim)%nat /\
  equal_to_98 (string_98 lim s) (string_98 lim t) = true /\
  size_98 (string_98 lim s) <> Some (size_11 s).
Proof.
  exists 4%nat, [97; -1], [97]. repeat split; try discriminate; cbn; lia.
Qed.

(** [pop_front] of the empty string is not an error; past the end there are
    fillers instead of errors. *)
Theorem C35_out_of_range : forall (lim : nat) (s : str) (n : Z),
  (length s < lim)%nat ->
  pop_front_98 (string_98 lim []) = string_98 lim [] /\
  (size_11 s <= n < Z.of_nat lim -> at_c_98 (string_98 lim s) n = Some no_char) /\
  (n < 0 \/ Z.of_nat lim <= n -> at_c_98 (string_98 lim s) n = None).
Proof.
  intros lim s n Hlen. split; [apply pop_front_98_empty; lia|].
  unfold size_11. rewrite at_c_98_padded by lia.
  split; intro H; destruct (Z.leb_spec 0 n), (Z.ltb_spec n (Z.of_nat lim)); try lia; auto.
  cbn [andb]. destruct (Z.ltb_spec n (Z.of_nat (length s))); [lia|reflexivity].
Qed.

Example C35_out_of_range_example :
  at_c_98 (string_98 5 (text "ab")) 3 = Some no_char /\ at_c_98 (string_98 5 (text "ab")) 5 = None.
Proof. now vm_compute. Qed.

(** ** C42: the limits generated by tools/string_headers.py *)

(** The limits are the multiples of the step below max + step - 1. *)
Theorem C42_limits : forall max step l : Z, 0 < step ->
  In l (length_limits max step) <-> exists i, 0 < i /\ l = i * step /\ l < max + step - 1.
Proof. exact length_limits_In. Qed.

Example C42_limits_example : length_limits 10 4 = [4; 8; 12] /\ length_limits 9 4 = [4; 8].
Proof. now vm_compute. Qed.

(** The macro of the generated headers accepts exactly the literals not longer
    than the configured limit, for every limit up to the largest generated
    one. *)
Theorem C42_generated_headers : forall (max step limit : Z) (lit : str),
  0 < step -> 1 < max ->
  metaparse_string (length_limits max step) limit lit =
  if (limit <=? step * ((max + step - 2) / step)) && (Z.of_nat (length lit) <=? limit)
  then Some lit else None.
Proof.
  intros max step limit lit Hs Hm.
  apply metaparse_string_spec; [now apply length_limits_good|now apply length_limits_max].
Qed.

Example C42_generated_headers_example :
  metaparse_string (length_limits 10 4) 12 (text "abcdefghijkl") = Some (text "abcdefghijkl") /\
  metaparse_string (length_limits 9 4) 9 (text "abc") = None.
Proof. now vm_compute. Qed.

(** Every literal up to the requested maximum is supported exactly when the
    maximum is not one more than a multiple of the step. *)
Theorem C42_reached : forall (max step : Z), 0 < step -> 0 < max ->
  (forall lit, Z.of_nat (length lit) <= max ->
     metaparse_string (length_limits max step) max lit = Some lit)
  <-> (max - 1) mod step <> 0.
Proof.
  intros max step Hs Hm.
  destruct (Z.eq_dec max 1) as [->|Hne].
  - rewrite length_limits_nil by lia. split.
    + intro H. specialize (H [] ltac:(cbn; lia)). discriminate.
    + intro H. exfalso. apply H. apply Z.mod_0_l. lia.
  - rewrite <- limit_reached by lia. split.
    + intro H. specialize (H [] ltac:(cbn; lia)).
      rewrite C42_generated_headers in H by lia.
      destruct (Z.leb_spec max (step * ((max + step - 2) / step))); [assumption|discriminate].
    + intros H lit Hlit. rewrite C42_generated_headers by lia.
      destruct (Z.leb_spec max (step * ((max + step - 2) / step))),
        (Z.leb_spec (Z.of_nat (length lit)) max); try lia. reflexivity.
Qed.

Example C42_reached_example : forall lit, Z.of_nat (length lit) <= 300 ->
  metaparse_string (length_limits 300 128) 300 lit = Some lit.
Proof. apply C42_reached; vm_compute; congruence. Qed.

Theorem C42_reached_refuted : exists (max step : Z) (lit : str),
  0 < step /\ 0 < max /\ Z.of_nat (length lit) <= max /\
  metaparse_string (length_limits max step) max lit = None.
Proof.
  exists 257, 128, []. repeat split; try lia.
  change (Z.of_nat (length (@nil char))) with 0. lia.
Qed.

Print Assumptions C33_access.
Print Assumptions C33_push_pop.
Print Assumptions C33_pop_exact.
Print Assumptions C33_equal_concat_c_str.
Print Assumptions C33_iteration.
Print Assumptions C33_iterators.
Print Assumptions C33_parser_view.
Print Assumptions C34_preserved.
Print Assumptions C34_rejected.
Print Assumptions C34_never_changed.
Print Assumptions C34_rounded_up_refuted.
Print Assumptions C35_size_at.
Print Assumptions C35_equal.
Print Assumptions C35_iteration.
Print Assumptions C35_updates.
Print Assumptions C35_parser_view.
Print Assumptions C35_full_length.
Print Assumptions C35_full_length_refuted.
Print Assumptions C35_eof_refuted.
Print Assumptions C35_out_of_range.
Print Assumptions C42_limits.
Print Assumptions C42_generated_headers.
Print Assumptions C42_reached.
Print Assumptions C42_reached_refuted.
