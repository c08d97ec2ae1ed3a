(** The library's templates as they treat arguments that are not evaluated yet.

    Everywhere else a source position is a value.  Here a position or a text may
    also be a nullary metafunction returning one (doc/lazy_metafunction.qbk), such
    as [get_position<R>] or [pop_front<S>], and the result of a parser is a class
    [accept<Result, Remaining, Pos>] or [reject<Msg, Pos>] of such classes. *)

From Coq Require Import ZArith List Bool.
From Verif Require Import Base Util Combinators Variadic Parsers Deep.
Import ListNotations.
Open Scope Z_scope.

(** A value [x], with [x::type] being [x], or a nullary metafunction [f], with
    [f::type] being a value and without the members of that value (impl/returns.hpp:17-21,
    get_position.hpp:20-22, mpl::eval_if, ...). *)
Inductive lazy (A : Type) : Type := Now (a : A) | Later (a : A).
Arguments Now {A}.
Arguments Later {A}.
(** [x::type] *)
Definition force {A} (x : lazy A) : A := match x with Now a => a | Later a => a end.

(** The classes that are results of parsers *)
Inductive result : Type :=
| CAccept (r : value) (rem : lazy str) (p : lazy pos)   (* accept.hpp:18-30 *)
| CReject (m : msg) (p : lazy pos)                      (* reject.hpp:18-27 *)
| CIllformed
| COutOfFuel.

(** [accept<...>::type], accept.hpp:23-25, and [reject<...>::type], reject.hpp:23 *)
Definition type (c : result) : result :=
  match c with
  | CAccept r s p => CAccept r (Now (force s)) (Now (force p))
  | CReject m p => CReject m (Now (force p))
  | c => c
  end.

(** ** Looking at results *)

(** An argument of the functions below: a result, or a nullary metafunction
    returning one; [T::type] *)
Definition type_of_result (t : lazy result) : result :=
  match t with Now c => type c | Later c => c end.

Inductive tag : Set := AcceptTag | FailTag.
(** the member [tag], accept.hpp:21, reject.hpp:21 *)
Definition tag_of (c : result) : option tag :=
  match c with CAccept _ _ _ => Some AcceptTag | CReject _ _ => Some FailTag | _ => None end.
(** [is_error<T>], is_error.hpp:22-28 *)
Definition is_error (t : lazy result) : option bool :=
  match tag_of (type_of_result t) with
  | Some FailTag => Some true
  | Some AcceptTag => Some false
  | None => None
  end.
(** [get_result<T>::type], get_result.hpp:20-23, accept_tag.hpp:36-41 *)
Definition get_result (t : lazy result) : option value :=
  match type_of_result t with CAccept r _ _ => Some r | _ => None end.
(** [get_remaining<T>::type], get_remaining.hpp:20-22, accept_tag.hpp:29-34 *)
Definition get_remaining (t : lazy result) : option str :=
  match type_of_result t with CAccept _ s _ => Some (force s) | _ => None end.
(** [get_position<T>::type], get_position.hpp:20-22, accept_tag.hpp:22-27,
    fail_tag.hpp:30-35 *)
Definition get_position (t : lazy result) : option pos :=
  match type_of_result t with CAccept _ _ p | CReject _ p => Some (force p) | _ => None end.
(** [get_message<T>::type], get_message.hpp:20-22, fail_tag.hpp:23-28 *)
Definition get_message (t : lazy result) : option msg :=
  match type_of_result t with CReject m _ => Some m | _ => None end.
(** [unless_error<T, NotErrorCase>::type], unless_error.hpp:20-23 *)
Definition unless_error (t : lazy result) (c : lazy result) : result :=
  match is_error t with
  | Some true => type_of_result t
  | Some false => type_of_result c
  | None => CIllformed
  end.

(** ** Source positions *)

(** [get_line<T>::type], get_line.hpp:20-22, source_position_tag.hpp:34-39; [get_col<T>::type],
    get_col.hpp:20-22, source_position_tag.hpp:27-32; [get_prev_char<T>::type],
    get_prev_char.hpp:20-22, source_position_tag.hpp:42-47 *)
Definition get_line (p : lazy pos) : Z := line (force p).
Definition get_col (p : lazy pos) : Z := col (force p).
Definition get_prev_char (p : lazy pos) : char := prev (force p).
(** [next_char<P, Ch>::type], next_char.hpp:19-24; [next_line<P, Ch>::type],
    next_line.hpp:19-24 *)
Definition l_next_char (p : lazy pos) (c : char) : pos := next_char (force p) c.
Definition l_next_line (p : lazy pos) (c : char) : pos := next_line (force p) c.
(** [boost::mpl::equal_to<A, B>]: it chooses its implementation by [A::tag] and
    [B::tag], which a position has and a metafunction returning one has not. *)
Definition l_equal_to (a b : lazy pos) : option bool :=
  match a, b with Now p, Now q => Some (pos_equal_to p q) | _, _ => None end.

(** ** Parsers

    [p s a] is [P::apply<S, Pos>::type].  A class template deriving from
    [accept<...>] has [accept<...>::type] as its [type]; deriving from [eval_if]
    it has the [type] of the chosen class, deriving from [if_] the chosen class
    itself. *)
Definition lparser := str -> lazy pos -> result.

(** return_.hpp:21-28, fail.hpp:17-24 *)
Definition l_return (v : value) : lparser := fun s a => type (CAccept v (Now s) a).
Definition l_fail (m : msg) : lparser := fun _ a => type (CReject m a).

(** one_char.hpp:31-44, 46-64 *)
Definition l_next_pos (c : char) (a : lazy pos) : pos :=
  if (c =? c_cr) || ((c =? c_lf) && negb (get_prev_char a =? c_cr)) then l_next_line a c else l_next_char a c.
Definition l_one_char : lparser := fun s a =>
  match s with
  | [] => type (CReject unexpected_end_of_input a)
  | c :: s' => type (CAccept (VChar c) (Later s') (Later (l_next_pos c a)))
  end.

(** empty.hpp:23-36: [if_] *)
Definition l_empty (r : value) : lparser := fun s a =>
  match s with
  | [] => CAccept r (Now s) a
  | _ :: _ => CReject end_of_input_expected a
  end.

(** accept_when.hpp:22-53 *)
Definition l_accept_when (p : lparser) (pr : pred1) (m : msg) : lparser := fun s a =>
  match p s a with
  | CAccept r s' a' =>
      match pr r with
      | Some true => CAccept r s' a'
      | Some false => type (CReject m a)
      | None => CIllformed
      end
  | c => c
  end.

(** change_error_message.hpp:20-33 *)
Definition l_change_error_message (p : lparser) (m : msg) : lparser := fun s a =>
  match p s a with
  | CReject _ _ => type (CReject m a)
  | c => c
  end.

(** transform.hpp:23-44: [get_remaining<...>] and [get_position<...>] are given to
    [accept] unevaluated *)
Definition l_transform (p : lparser) (f : mf1) : lparser := fun s a =>
  match p s a with
  | CAccept r s' a' =>
      match f r with
      | Some v => type (CAccept v (Later (force s')) (Later (force a')))
      | None => CIllformed
      end
  | c => c
  end.

(** The classes of an outcome whose members are evaluated *)
Definition evaluated (o : outcome) : result :=
  match o with
  | Accept r s p => CAccept r (Now s) (Now p)
  | Reject m p => CReject m (Now p)
  | Illformed => CIllformed
  | OutOfFuel => COutOfFuel
  end.

(** transform_error.hpp:19-34.  Simplification: [F] looks at the position of the
    rejection with [get_position], and what it returns is evaluated. *)
Definition l_transform_error (p : lparser) (f : msg -> pos -> outcome) : lparser := fun s a =>
  match p s a with
  | CReject m a' => evaluated (f m (force a'))
  | c => c
  end.

(** transform_error_message.hpp:22-43 *)
Definition l_transform_error_message (p : lparser) (f : mfmsg) : lparser := fun s a =>
  match p s a with
  | CReject m a' =>
      match f m with
      | Some m' => type (CReject m' (Later (force a')))
      | None => CIllformed
      end
  | c => c
  end.

(** always.hpp:22-45 *)
Definition l_always (p : lparser) (v : value) : lparser := fun s a =>
  match p s a with
  | CAccept _ s' a' => type (CAccept v (Now (force s')) (Now (force a')))
  | c => c
  end.

(** look_ahead.hpp:21-44 *)
Definition l_look_ahead (p : lparser) : lparser := fun s a =>
  match p s a with
  | CAccept r _ _ => type (CAccept r (Now s) a)
  | c => c
  end.

(** optional.hpp:20-34: [if_] *)
Definition l_optional (p : lparser) (d : value) : lparser := fun s a =>
  match p s a with
  | CReject _ _ => CAccept d (Now s) a
  | c => c
  end.

(** except.hpp:21-34: [if_] *)
Definition l_except (p : lparser) (v : value) (m : msg) : lparser := fun s a =>
  match p s a with
  | CReject _ _ => CAccept v (Now s) a
  | CAccept _ _ _ => CReject m a
  | c => c
  end.

(** if_.hpp:20-37 *)
Definition l_if (p : lparser) (t f : value) : lparser := fun s a =>
  match p s a with
  | CReject _ _ => type (CAccept f (Now s) a)
  | CAccept _ _ _ => type (CAccept t (Now s) a)
  | c => c
  end.

(** fail_at_first_char_expected.hpp:26-52: [Pos] is given to [equal_to] as it is *)
Definition l_fail_at_first_char_expected (p : lparser) : lparser := fun s a =>
  match p s a with
  | CReject m a' =>
      match l_equal_to a (Now (force a')) with
      | Some true => type (CAccept VVoid_ (Now s) a)
      | Some false => CReject m a'
      | None => CIllformed
      end
  | CAccept _ _ _ => type (CReject expected_to_fail a)
  | c => c
  end.

(** lit_c.hpp:21-28 *)
Definition l_lit_c (c : char) : lparser :=
  l_accept_when (l_change_error_message l_one_char (literal_expected c)) (is_char_c c) (literal_expected c).

(** keyword.hpp:28-76 *)
Fixpoint l_keyword (kw : str) (r : value) : lparser :=
  match kw with
  | [] => l_return r
  | c :: kw' => fun s a =>
      match l_lit_c c s a with
      | CAccept _ s' a' => l_keyword kw' r (force s') (Now (force a'))
      | o => o
      end
  end.

(** *** Folds *)

(** foldl.hpp:23-59 *)
Fixpoint l_foldl (n : nat) (p : lparser) (st : option value) (f : mf2) (s : str) (a : lazy pos) : result :=
  match n with
  | O => COutOfFuel
  | S n' =>
      match p s a with
      | CReject _ _ => match st with Some v => type (CAccept v (Now s) a) | None => CIllformed end
      | CAccept r s' a' =>
          match st with
          | Some v => l_foldl n' p (f v r) f (force s') (Now (force a'))
          | None => CIllformed
          end
      | c => c
      end
  end.

(** foldl1.hpp:19-32 *)
Definition l_foldl1 (n : nat) (p : lparser) (st : option value) (f : mf2) : lparser := fun s a =>
  match p s a with CAccept _ _ _ => l_foldl n p st f s a | c => c end.

(** foldl_reject_incomplete.hpp:24-71: [typename Pos::type] is given to [equal_to] *)
Fixpoint l_foldl_reject_incomplete (n : nat) (p : lparser) (st : option value) (f : mf2)
  (s : str) (a : lazy pos) : result :=
  match n with
  | O => COutOfFuel
  | S n' =>
      match p s a with
      | CReject m a' =>
          match l_equal_to (Now (force a)) (Now (force a')) with
          | Some true => match st with Some v => type (CAccept v (Now s) a) | None => CIllformed end
          | Some false => CReject m a'
          | None => CIllformed
          end
      | CAccept r s' a' =>
          match st with
          | Some v => l_foldl_reject_incomplete n' p (f v r) f (force s') (Now (force a'))
          | None => CIllformed
          end
      | c => c
      end
  end.

(** foldl_reject_incomplete1.hpp:19-32 *)
Definition l_foldl_reject_incomplete1 (n : nat) (p : lparser) (st : option value) (f : mf2) : lparser := fun s a =>
  match p s a with CAccept _ _ _ => l_foldl_reject_incomplete n p st f s a | c => c end.

(** foldl_start_with_parser.hpp:17-39 *)
Definition l_foldl_start_with_parser (n : nat) (p sp : lparser) (f : mf2) : lparser := fun s a =>
  match sp s a with
  | CAccept r s' a' => l_foldl n p (type_of r) f (force s') (Now (force a'))
  | c => c
  end.

(** foldl_reject_incomplete_start_with_parser.hpp:23-49 *)
Definition l_foldl_reject_incomplete_start_with_parser (n : nat) (p sp : lparser) (f : mf2) : lparser := fun s a =>
  match sp s a with
  | CAccept r s' a' => l_foldl_reject_incomplete n p (type_of r) f (force s') (Now (force a'))
  | c => c
  end.

(** foldr_start_with_parser.hpp:23-72 *)
Fixpoint l_foldr_start_with_parser (n : nat) (p sp : lparser) (f : mf2) (s : str) (a : lazy pos) : result :=
  match n with
  | O => COutOfFuel
  | S n' =>
      match p s a with
      | CReject _ _ => sp s a
      | CAccept r s' a' =>
          match l_foldr_start_with_parser n' p sp f (force s') (Now (force a')) with
          | CAccept v s2 a2 =>
              match f v r with
              | Some w => type (CAccept w (Now (force s2)) (Now (force a2)))
              | None => CIllformed
              end
          | c => c
          end
      | c => c
      end
  end.

(** foldr.hpp:18-19, foldr1.hpp:19-32 *)
Definition l_foldr (n : nat) (p : lparser) (st : value) (f : mf2) : lparser :=
  l_foldr_start_with_parser n p (l_return st) f.
Definition l_foldr1 (n : nat) (p : lparser) (st : value) (f : mf2) : lparser := fun s a =>
  match p s a with CAccept _ _ _ => l_foldr n p st f s a | c => c end.

(** impl/iterate_impl.hpp:23-39, impl/iterate_impl_unchecked.hpp:24-37 *)
Fixpoint l_iterate_impl (n : nat) (k : Z) (p : lparser) (acc : value) (s : str) (a : lazy pos) : result :=
  match n with
  | O => COutOfFuel
  | S n' =>
      if k =? 0 then l_return acc s a
      else
        match p s a with
        | CAccept r s' a' =>
            match push_back acc r with
            | Some acc' => l_iterate_impl n' (k - 1) p acc' (force s') (Now (force a'))
            | None => CIllformed
            end
        | c => c
        end
  end.
(** iterate_c.hpp:19-20 *)
Definition l_iterate_c (n : nat) (p : lparser) (k : Z) : lparser := l_iterate_impl n k p (VSeq []).

(** *** one_of *)

(** cpp11/one_of.hpp:22-50, cpp11/impl/eval_later_result.hpp:22-32 *)
Fixpoint l_one_of_11 (l : list lparser) : lparser :=
  match l with
  | [] => l_fail none_of_the_expected_cases_found
  | p :: l' => fun s a =>
      match p s a with
      | CReject m1 a1 =>
          match l_one_of_11 l' s a with
          | CReject m2 a2 => if pos_less (force a2) (force a1) then CReject m1 a1 else CReject m2 a2
          | c => c
          end
      | CAccept r s' a' =>
          match l_one_of_11 l' s a with
          | CIllformed => CIllformed
          | COutOfFuel => COutOfFuel
          | _ => CAccept r s' a'
          end
      | c => c
      end
  end.

(** cpp98/impl/one_of_fwd_op.hpp:22-39, cpp98/impl/later_result.hpp:22-32.  [state] is
    the [type] of the state of the fold: [later_result] returns one of the classes
    it is given, the other cases its [type]. *)
Definition l_one_of_fwd_op (s : str) (a : lazy pos) (state : result) (p : lparser) : result :=
  match state with
  | CReject m1 a1 =>
      match p s a with
      | CReject m2 a2 => if pos_less (force a2) (force a1) then CReject m1 a1 else CReject m2 a2
      | c => type c
      end
  | CAccept r s' a' =>
      match p s a with
      | CIllformed => CIllformed
      | COutOfFuel => COutOfFuel
      | _ => type (CAccept r s' a')
      end
  | c => c
  end.
(** cpp98/impl/one_of.hpp:24-37, cpp98/one_of.hpp:23-36 *)
Definition l_one_of_98_impl (l : list lparser) : lparser := fun s a =>
  fold_left (l_one_of_fwd_op s a) l (l_fail none_of_the_expected_cases_found s a).
Definition l_one_of_98 (lim : nat) (l : list lparser) : lparser := fun s a =>
  if Nat.leb (length l) lim then l_one_of_98_impl l s a else CIllformed.
(** one_of.hpp:11-15 *)
Definition l_one_of (cfg : config) (l : list lparser) : lparser :=
  match cfg_std cfg with
  | Std98 => l_one_of_98 (limit_one_of cfg) l
  | Std11 | Std14 => l_one_of_11 l
  end.

(** *** sequence *)

(** cpp11/sequence.hpp:26-57 *)
Fixpoint l_sequence_11 (l : list lparser) : lparser :=
  match l with
  | [] => l_return (VSeq [])
  | p :: l' => fun s a =>
      match p s a with
      | CAccept r s' a' => l_transform (l_sequence_11 l') (push_front_result r) (force s') (Now (force a'))
      | c => c
      end
  end.
(** impl/apply_parser.hpp:25-56 *)
Definition l_apply_parser (state : result) (p : lparser) : result :=
  match type state with
  | CAccept r s a => l_transform p (fun item => push_back r item) (force s) (Now (force a))
  | c => c
  end.
(** cpp98/impl/sequence_impl.hpp:23-30: the first state is not evaluated *)
Definition l_sequence_impl (l : list lparser) : lparser := fun s a =>
  fold_left l_apply_parser l (CAccept (VSeq []) (Now s) a).
(** cpp98/sequence.hpp:26-56 *)
Definition l_sequence_98 (lim : nat) (l : list lparser) : lparser := fun s a =>
  if (Nat.leb 1 (length l) && Nat.ltb (length l) lim)%bool then l_sequence_impl l s a else CIllformed.
(** sequence.hpp *)
Definition l_sequence (cfg : config) (l : list lparser) : lparser :=
  match cfg_std cfg with
  | Std98 => l_sequence_98 (limit_sequence cfg) l
  | Std11 | Std14 => l_sequence_11 l
  end.
(** sequence_apply.hpp:55-71 *)
Definition l_sequence_apply (cfg : config) (t : list value -> value) (l : list lparser) : lparser := fun s a =>
  if (Nat.leb 1 (length l) && Nat.ltb (length l) (limit_sequence cfg))%bool
  then l_transform (l_sequence cfg l) (sequence_apply_transform t (length l)) s a
  else CIllformed.

(** *** nth_of, first_of, last_of *)

(** cpp11/impl/nth_of_c_skip_remaining.hpp:24-53 *)
Fixpoint l_skip_remaining (r : value) (l : list lparser) : lparser :=
  match l with
  | [] => l_return r
  | p :: l' => fun s a =>
      match p s a with
      | CAccept _ s' a' => l_skip_remaining r l' (force s') (Now (force a'))
      | c => c
      end
  end.
(** cpp11/impl/nth_of_c.hpp:26-75 *)
Fixpoint l_nth_of_c_11_impl (k : Z) (l : list lparser) : lparser :=
  match l with
  | [] => fun _ _ => CIllformed
  | p :: l' => fun s a =>
      match p s a with
      | CAccept r s' a' =>
          if k =? 0 then l_skip_remaining r l' (force s') (Now (force a'))
          else l_nth_of_c_11_impl (k - 1) l' (force s') (Now (force a'))
      | c => c
      end
  end.
(** cpp11/nth_of_c.hpp:22-39 *)
Definition l_nth_of_c_11 (k : Z) (l : list lparser) : lparser := fun s a =>
  match l with
  | [] => l_fail (index_out_of_range 0 (-1) k) s a
  | _ :: _ =>
      if (0 <=? k) && (k <? Z.of_nat (length l))
      then l_nth_of_c_11_impl k l s a
      else l_fail (index_out_of_range 0 (Z.of_nat (length l) - 1) k) s a
  end.
(** cpp98/impl/skip_seq.hpp:23-67 *)
Definition l_skip_seq (res : result) (p : lparser) : result :=
  match res with
  | CAccept r s a =>
      match p (force s) (Now (force a)) with
      | CAccept _ s' a' => type (CAccept r (Now (force s')) (Now (force a')))
      | c => c
      end
  | c => type c
  end.
(** cpp98/impl/nth_of_c_impl.hpp:23-70 *)
Fixpoint l_nth_of_c_98_impl (k : Z) (l : list lparser) : lparser :=
  match l with
  | [] => fun _ _ => CIllformed
  | p :: l' => fun s a =>
      if k =? 0 then fold_left l_skip_seq l' (p s a)
      else
        match p s a with
        | CAccept _ s' a' => l_nth_of_c_98_impl (k - 1) l' (force s') (Now (force a'))
        | c => c
        end
  end.
(** cpp98/impl/nth_of_c.hpp:29-52, cpp98/nth_of_c.hpp:27-62 *)
Definition l_nth_of_cN (k : Z) (l : list lparser) : lparser := fun s a =>
  if (0 <=? k) && (k <? Z.of_nat (length l))
  then l_nth_of_c_98_impl k l s a
  else l_fail (index_out_of_range 0 (Z.of_nat (length l) - 1) k) s a.
Definition l_nth_of_c_98 (lim : nat) (k : Z) (l : list lparser) : lparser := fun s a =>
  if Nat.ltb (length l) lim then l_nth_of_cN k l s a else CIllformed.
(** nth_of_c.hpp *)
Definition l_nth_of_c (cfg : config) (k : Z) (l : list lparser) : lparser :=
  match cfg_std cfg with
  | Std98 => l_nth_of_c_98 (limit_sequence cfg) k l
  | Std11 | Std14 => l_nth_of_c_11 k l
  end.
(** cpp11/first_of.hpp:20-30, cpp98/first_of.hpp:17-29, cpp11/last_of.hpp:20-30,
    cpp98/last_of.hpp:26-58 *)
Definition l_first_of (cfg : config) (l : list lparser) : lparser :=
  match cfg_std cfg with
  | Std98 => l_nth_of_c_98 (limit_sequence cfg) 0 l
  | Std11 | Std14 =>
      match l with
      | [] => l_fail (index_out_of_range 0 (-1) 0)
      | _ :: _ => l_nth_of_c_11_impl 0 l
      end
  end.
Definition l_last_of (cfg : config) (l : list lparser) : lparser :=
  match cfg_std cfg with
  | Std98 => fun s a =>
      if Nat.ltb (length l) (limit_sequence cfg)
      then l_nth_of_cN (Z.of_nat (length l) - 1) l s a else CIllformed
  | Std11 | Std14 =>
      match l with
      | [] => l_fail (index_out_of_range 0 (-1) 0)
      | _ :: _ => l_nth_of_c_11_impl (Z.of_nat (length l) - 1) l
      end
  end.

(** *** Characters and the rest *)

(** one_of_c.hpp:11-17, one_char_except_c.hpp *)
Definition l_one_of_c (cfg : config) (cs : list char) : lparser :=
  match cfg_std cfg with
  | Std98 => fun s a =>
      if Nat.ltb (length cs) (limit_one_of cfg)
      then l_one_of_98 (limit_one_of cfg) (map l_lit_c cs) s a else CIllformed
  | Std11 => l_accept_when l_one_char (any_of_c_11 cs) none_of_the_expected_cases_found
  | Std14 => l_accept_when l_one_char (any_of_c_14 cs) none_of_the_expected_cases_found
  end.
Definition l_one_char_except_c (cfg : config) (cs : list char) : lparser :=
  match cfg_std cfg with
  | Std98 => fun s a =>
      if Nat.ltb (length cs) (limit_one_char_except cfg)
      then l_accept_when l_one_char (is_none_98 (length cs) cs) unexpected_character s a
      else CIllformed
  | Std11 | Std14 => l_accept_when l_one_char (is_none_c cs) unexpected_character
  end.

(** middle_of.hpp:22-42 *)
Definition l_middle_of (cfg : config) (p1 p2 p3 : lparser) : lparser := fun s a =>
  l_nth_of_c cfg 1
    [p1; p2; l_transform_error_message p3 (fun m => Some (unpaired (get_line a) (get_col a) m))] s a.

(** entire_input.hpp:19-27 *)
Definition l_entire_input (cfg : config) (p : lparser) (m : msg) : lparser :=
  match m with
  | end_of_input_expected => l_first_of cfg [p; l_empty VVoid]
  | _ => l_first_of cfg [p; l_change_error_message (l_empty VVoid) m]
  end.

(** foldr_reject_incomplete.hpp:20-27, foldr_reject_incomplete1.hpp:19-32 *)
Definition l_foldr_reject_incomplete (cfg : config) (n : nat) (p : lparser) (st : value) (f : mf2) : lparser :=
  l_foldr_start_with_parser n p (l_first_of cfg [l_return st; l_fail_at_first_char_expected p]) f.
Definition l_foldr_reject_incomplete1 (cfg : config) (n : nat) (p : lparser) (st : value) (f : mf2) : lparser :=
  fun s a =>
  match p s a with CAccept _ _ _ => l_foldr_reject_incomplete cfg n p st f s a | c => c end.

(** The parsers of [Deep.v].  Simplification: a parser the user wrote evaluates the
    position it is given and returns an evaluated result. *)
Fixpoint l_eval (cfg : config) (env : program) (n : nat) {struct n} : pexpr -> lparser :=
  fix ev (e : pexpr) : lparser :=
    match e with
    | PNative p => fun s a => evaluated (p s (force a))
    | PRef k =>
        match n with
        | O => fun _ _ => COutOfFuel
        | S n' => fun s a => l_eval cfg env n' (env k) s a
        end
    | PReturn v => l_return v
    | PFail m => l_fail m
    | POneChar => l_one_char
    | PEmpty r => l_empty r
    | PAcceptWhen p pr m => l_accept_when (ev p) pr m
    | PChangeErrorMessage p m => l_change_error_message (ev p) m
    | PTransform p f => l_transform (ev p) f
    | PTransformError p f => l_transform_error (ev p) f
    | PTransformErrorMessage p f => l_transform_error_message (ev p) f
    | PAlways p v => l_always (ev p) v
    | PLookAhead p => l_look_ahead (ev p)
    | POptional p d => l_optional (ev p) d
    | PExcept p v m => l_except (ev p) v m
    | PIf p t f => l_if (ev p) t f
    | PFailAtFirstCharExpected p => l_fail_at_first_char_expected (ev p)
    | PKeyword kw r => l_keyword kw r
    | PFoldl p st f => l_foldl n (ev p) st f
    | PFoldl1 p st f => l_foldl1 n (ev p) st f
    | PFoldlRejectIncomplete p st f => l_foldl_reject_incomplete n (ev p) st f
    | PFoldlRejectIncomplete1 p st f => l_foldl_reject_incomplete1 n (ev p) st f
    | PFoldlStartWithParser p sp f => l_foldl_start_with_parser n (ev p) (ev sp) f
    | PFoldlRejectIncompleteStartWithParser p sp f =>
        l_foldl_reject_incomplete_start_with_parser n (ev p) (ev sp) f
    | PFoldrStartWithParser p sp f => l_foldr_start_with_parser n (ev p) (ev sp) f
    | PFoldr p st f => l_foldr n (ev p) st f
    | PFoldr1 p st f => l_foldr1 n (ev p) st f
    | PFoldrRejectIncomplete p st f => l_foldr_reject_incomplete cfg n (ev p) st f
    | PFoldrRejectIncomplete1 p st f => l_foldr_reject_incomplete1 cfg n (ev p) st f
    | PIterate p k => l_iterate_c n (ev p) k
    | POneOf l => l_one_of cfg (map ev l)
    | PSequence l => l_sequence cfg (map ev l)
    | PSequenceApply t l => l_sequence_apply cfg t (map ev l)
    | PNthOf k l => l_nth_of_c cfg k (map ev l)
    | PFirstOf l => l_first_of cfg (map ev l)
    | PLastOf l => l_last_of cfg (map ev l)
    | POneOfC cs => l_one_of_c cfg cs
    | POneCharExceptC cs => l_one_char_except_c cfg cs
    | PMiddleOf p1 p2 p3 => l_middle_of cfg (ev p1) (ev p2) (ev p3)
    | PEntireInput p m => l_entire_input cfg (ev p) m
    end.
