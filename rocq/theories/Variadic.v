(** The combinators with a variable number of arguments.  The C++98, C++11 and
    C++14 directories contain separate implementations; each is modelled by its
    own function ([_98], [_11], [_14]) and the dispatching headers by a match on
    the configured standard. *)

From Coq Require Import ZArith List Bool.
From Verif Require Import Base Util Combinators.
Import ListNotations.
Open Scope Z_scope.

(** ** one_of *)

(** [impl::eval_later_result<R1, R2>], cpp11/impl/eval_later_result.hpp:22-32,
    and [impl::later_result<R1, R2>], cpp98/impl/later_result.hpp:22-32, on two
    rejections at [p1] and [p2]. *)
Definition later_result (m1 : msg) (p1 : pos) (m2 : msg) (p2 : pos) : outcome :=
  if pos_less p2 p1 then Reject m1 p1 else Reject m2 p2.

(** [one_of<Ps...>], cpp11/one_of.hpp:22-50.  The condition of the inner
    [eval_if] is a template argument of the outer one, so
    [one_of<Ps...>::apply<S, Pos>] is instantiated even if [P] accepts. *)
Fixpoint one_of_11 (l : list pfun) : pfun :=
  match l with
  | [] => fail none_of_the_expected_cases_found
  | p :: l' => fun s ps =>
      match p s ps with
      | Reject m1 p1 =>
          match one_of_11 l' s ps with
          | Reject m2 p2 => later_result m1 p1 m2 p2
          | o => o
          end
      | Accept r s' ps' =>
          match one_of_11 l' s ps with
          | Illformed => Illformed
          | OutOfFuel => OutOfFuel
          | _ => Accept r s' ps'
          end
      | o => o
      end
  end.

(** [impl::one_of_fwd_op<S, Pos>::apply<State, P>],
    cpp98/impl/one_of_fwd_op.hpp:22-39: also instantiates [P] if [State] is not
    an error. *)
Definition one_of_fwd_op (s : str) (ps : pos) (state : outcome) (p : pfun)
  : outcome :=
  match state with
  | Reject m1 p1 =>
      match p s ps with
      | Reject m2 p2 => later_result m1 p1 m2 p2
      | o => o
      end
  | Accept r s' ps' =>
      match p s ps with
      | Illformed => Illformed
      | OutOfFuel => OutOfFuel
      | _ => Accept r s' ps'
      end
  | o => o
  end.

(** [impl::one_of<Parsers>], cpp98/impl/one_of.hpp:24-37 *)
Definition one_of_98_impl (l : list pfun) : pfun := fun s ps =>
  fold_left (one_of_fwd_op s ps) l
    (fail none_of_the_expected_cases_found s ps).

(** [one_of<P0, ..., Pn-1>], cpp98/one_of.hpp:23-36: a template of
    [LIMIT_ONE_OF_SIZE] arguments with defaults. *)
Definition one_of_98 (lim : nat) (l : list pfun) : pfun := fun s ps =>
  if Nat.leb (length l) lim then one_of_98_impl l s ps else Illformed.

(** one_of.hpp:11-15 *)
Definition one_of (cfg : config) (l : list pfun) : pfun :=
  match cfg_std cfg with
  | Std98 => one_of_98 (limit_one_of cfg) l
  | Std11 | Std14 => one_of_11 l
  end.

(** [repeated_one_of<Ps...>] and [repeated_one_of1<Ps...>],
    cpp11/repeated_one_of.hpp:18-19, cpp11/repeated_one_of1.hpp:18-19,
    cpp98/repeated_one_of.hpp:24-39, cpp98/repeated_one_of1.hpp:24-39 *)
Definition repeated_one_of (cfg : config) (n : nat) (l : list pfun) : pfun :=
  repeated n (one_of cfg l).
Definition repeated_one_of1 (cfg : config) (n : nat) (l : list pfun) : pfun :=
  repeated1 n (one_of cfg l).

(** ** sequence *)

(** [impl::push_front_result<Value>], cpp11/impl/push_front_result.hpp:21-30 *)
Definition push_front_result (r : value) : mf1 := fun seq => push_front seq r.

(** [sequence<Ps...>], cpp11/sequence.hpp:26-57 *)
Fixpoint sequence_11 (l : list pfun) : pfun :=
  match l with
  | [] => return_ (VSeq [])
  | p :: l' => fun s ps =>
      match p s ps with
      | Accept r s' ps' =>
          transform (sequence_11 l') (push_front_result r) s' ps'
      | o => o
      end
  end.

(** [impl::apply_parser::apply<State, Parser>], impl/apply_parser.hpp:25-56 *)
Definition apply_parser (state : outcome) (p : pfun) : outcome :=
  match state with
  | Accept r s ps => transform p (fun item => push_back r item) s ps
  | o => o
  end.

(** [impl::sequence_impl<Ps, S, Pos>], cpp98/impl/sequence_impl.hpp:23-30 *)
Definition sequence_impl (l : list pfun) : pfun := fun s ps =>
  fold_left apply_parser l (Accept (VSeq []) s ps).

(** [sequence<P0, ..., Pn-1>], cpp98/sequence.hpp:26-56 and
    cpp98/impl/sequence.hpp:29-50: only declared unless
    1 <= n < LIMIT_SEQUENCE_SIZE. *)
Definition sequence_98 (lim : nat) (l : list pfun) : pfun := fun s ps =>
  if (Nat.leb 1 (length l) && Nat.ltb (length l) lim)%bool
  then sequence_impl l s ps else Illformed.

(** sequence.hpp *)
Definition sequence (cfg : config) (l : list pfun) : pfun :=
  match cfg_std cfg with
  | Std98 => sequence_98 (limit_sequence cfg) l
  | Std11 | Std14 => sequence_11 l
  end.

(** [impl::sequence_apply_transformN<T>::apply<V>], sequence_apply.hpp:38-53:
    [T<at_c<V, 0>, ..., at_c<V, N-1>>]; [t] builds the instance of the class
    template [T] from its arguments. *)
Definition sequence_apply_transform (t : list value -> value) (n : nat) : mf1 :=
  fun v =>
  (fix args (k : nat) (done : list value) : option value :=
     match k with
     | O => Some (t done)
     | S k' => match at_c v k' with
               | Some x => args k' (x :: done)
               | None => None
               end
     end) n [].

(** [sequence_applyN<T, P1, ..., PN>], sequence_apply.hpp:55-71: defined for
    1 <= N < LIMIT_SEQUENCE_SIZE in every standard. *)
Definition sequence_apply (cfg : config) (t : list value -> value)
  (l : list pfun) : pfun := fun s ps =>
  if (Nat.leb 1 (length l) && Nat.ltb (length l) (limit_sequence cfg))%bool
  then transform (sequence cfg l) (sequence_apply_transform t (length l)) s ps
  else Illformed.

(** ** nth_of, first_of, last_of *)

(** [impl::nth_of_c_skip_remaining<FinalResult, S, Pos, Ps...>],
    cpp11/impl/nth_of_c_skip_remaining.hpp:24-53 *)
Fixpoint nth_of_c_skip_remaining (r : value) (l : list pfun) : pfun :=
  match l with
  | [] => return_ r
  | p :: l' => fun s ps =>
      match p s ps with
      | Accept _ s' ps' => nth_of_c_skip_remaining r l' s' ps'
      | o => o
      end
  end.

(** [impl::nth_of_c<N, S, Pos, Ps...>], cpp11/impl/nth_of_c.hpp:26-75; only
    declared for an empty list of parsers. *)
Fixpoint nth_of_c_11_impl (k : Z) (l : list pfun) : pfun :=
  match l with
  | [] => fun _ _ => Illformed
  | p :: l' => fun s ps =>
      match p s ps with
      | Accept r s' ps' =>
          if k =? 0 then nth_of_c_skip_remaining r l' s' ps'
          else nth_of_c_11_impl (k - 1) l' s' ps'
      | o => o
      end
  end.

(** [nth_of_c<N, Ps...>], cpp11/nth_of_c.hpp:22-39 *)
Definition nth_of_c_11 (k : Z) (l : list pfun) : pfun := fun s ps =>
  match l with
  | [] => fail (index_out_of_range 0 (-1) k) s ps
  | _ :: _ =>
      if (0 <=? k) && (k <? Z.of_nat (length l))
      then nth_of_c_11_impl k l s ps
      else fail (index_out_of_range 0 (Z.of_nat (length l) - 1) k) s ps
  end.

(** [impl::skip_seq::apply<Result, P>], cpp98/impl/skip_seq.hpp:23-67 *)
Definition skip_seq (result : outcome) (p : pfun) : outcome :=
  match result with
  | Accept r s ps =>
      match p s ps with
      | Accept _ s' ps' => Accept r s' ps'
      | o => o
      end
  | o => o
  end.

(** [impl::nth_of_c_impl<N, Seq>], cpp98/impl/nth_of_c_impl.hpp:23-70 *)
Fixpoint nth_of_c_98_impl (k : Z) (l : list pfun) : pfun :=
  match l with
  | [] => fun _ _ => Illformed
  | p :: l' => fun s ps =>
      if k =? 0 then fold_left skip_seq l' (p s ps)
      else
        match p s ps with
        | Accept _ s' ps' => nth_of_c_98_impl (k - 1) l' s' ps'
        | o => o
        end
  end.

(** [impl::nth_of_cN<K, P0, ..., PN-1>], cpp98/impl/nth_of_c.hpp:29-52 *)
Definition nth_of_cN (k : Z) (l : list pfun) : pfun := fun s ps =>
  if (0 <=? k) && (k <? Z.of_nat (length l))
  then nth_of_c_98_impl k l s ps
  else fail (index_out_of_range 0 (Z.of_nat (length l) - 1) k) s ps.

(** [nth_of_c<K, P0, ..., Pn-1>], cpp98/nth_of_c.hpp:27-62: defined for
    n < LIMIT_SEQUENCE_SIZE *)
Definition nth_of_c_98 (lim : nat) (k : Z) (l : list pfun) : pfun := fun s ps =>
  if Nat.ltb (length l) lim then nth_of_cN k l s ps else Illformed.

(** nth_of_c.hpp; [nth_of<K, Ps...>] is [nth_of_c<K::type::value, Ps...>],
    cpp11/nth_of.hpp:17-18, cpp98/nth_of.hpp:19-34 *)
Definition nth_of_c (cfg : config) (k : Z) (l : list pfun) : pfun :=
  match cfg_std cfg with
  | Std98 => nth_of_c_98 (limit_sequence cfg) k l
  | Std11 | Std14 => nth_of_c_11 k l
  end.

(** [first_of<Ps...>], cpp11/first_of.hpp:20-30 *)
Definition first_of_11 (l : list pfun) : pfun :=
  match l with
  | [] => fail (index_out_of_range 0 (-1) 0)
  | _ :: _ => nth_of_c_11_impl 0 l
  end.

(** [first_of<P0, ..., Pn-1>], cpp98/first_of.hpp:17-29 *)
Definition first_of_98 (lim : nat) (l : list pfun) : pfun := nth_of_c_98 lim 0 l.

(** first_of.hpp *)
Definition first_of (cfg : config) (l : list pfun) : pfun :=
  match cfg_std cfg with
  | Std98 => first_of_98 (limit_sequence cfg) l
  | Std11 | Std14 => first_of_11 l
  end.

(** [last_of<Ps...>], cpp11/last_of.hpp:20-30 *)
Definition last_of_11 (l : list pfun) : pfun :=
  match l with
  | [] => fail (index_out_of_range 0 (-1) 0)
  | _ :: _ => nth_of_c_11_impl (Z.of_nat (length l) - 1) l
  end.

(** [last_of<P0, ..., Pn-1>], cpp98/last_of.hpp:26-58: [impl::nth_of_cn<n-1>] *)
Definition last_of_98 (lim : nat) (l : list pfun) : pfun := fun s ps =>
  if Nat.ltb (length l) lim
  then nth_of_cN (Z.of_nat (length l) - 1) l s ps else Illformed.

(** last_of.hpp *)
Definition last_of (cfg : config) (l : list pfun) : pfun :=
  match cfg_std cfg with
  | Std98 => last_of_98 (limit_sequence cfg) l
  | Std11 | Std14 => last_of_11 l
  end.

(** ** one_of_c and one_char_except *)

(** [impl::any_of_c<Cs...>] with [or_c], cpp11/impl/any_of_c.hpp:19-26 and
    cpp11/impl/or_c.hpp:19-29 *)
Fixpoint or_c (bs : list bool) : bool :=
  match bs with
  | [] => false
  | b :: bs' => if b then true else or_c bs'
  end.
Definition any_of_c_11 (cs : list char) : pred1 := fun v =>
  match as_int v with
  | Some n => Some (or_c (map (fun c => n =? c) cs))
  | None => None
  end.

(** [impl::any_of_c<Cs...>::run], cpp14/impl/any_of_c.hpp:19-48: a loop over
    the array [{(c == Cs)...}]; without characters the argument is not looked
    at. *)
Definition any_of_c_14 (cs : list char) : pred1 := fun v =>
  match cs with
  | [] => Some false
  | _ :: _ =>
      match as_int v with
      | Some n =>
          Some ((fix run (values : list bool) : bool :=
                   match values with
                   | [] => false
                   | i :: rest => if i then true else run rest
                   end) (map (fun c => n =? c) cs))
      | None => None
      end
  end.

(** [one_of_c<Cs...>], cpp11/one_of_c.hpp:22-29, cpp14/one_of_c.hpp:22-29 *)
Definition one_of_c_11 (cs : list char) : pfun :=
  accept_when one_char (any_of_c_11 cs) none_of_the_expected_cases_found.
Definition one_of_c_14 (cs : list char) : pfun :=
  accept_when one_char (any_of_c_14 cs) none_of_the_expected_cases_found.

(** [one_of_c<C0, ..., Cn-1>], cpp98/one_of_c.hpp:35-71: defined for
    n < LIMIT_ONE_OF_SIZE *)
Definition one_of_c_98 (lim : nat) (cs : list char) : pfun := fun s ps =>
  if Nat.ltb (length cs) lim
  then one_of_98 lim (map lit_c cs) s ps else Illformed.

(** one_of_c.hpp:11-17 *)
Definition one_of_c (cfg : config) (cs : list char) : pfun :=
  match cfg_std cfg with
  | Std98 => one_of_c_98 (limit_one_of cfg) cs
  | Std11 => one_of_c_11 cs
  | Std14 => one_of_c_14 cs
  end.

(** [impl::is_none_c<Cs...>], cpp11/impl/is_none_c.hpp:19-26 and
    cpp11/impl/is_none_c_impl.hpp:19-29 *)
Fixpoint is_none_c_impl (d : char) (cs : list char) : bool :=
  match cs with
  | [] => true
  | c :: cs' => if d =? c then false else is_none_c_impl d cs'
  end.
Definition is_none_c (cs : list char) : pred1 := fun v =>
  match as_int v with
  | Some d => Some (is_none_c_impl d cs)
  | None => None
  end.

(** [one_char_except_c<Cs...>], cpp11/one_char_except_c.hpp:20-27, and
    [one_char_except<Cs...>], cpp11/one_char_except.hpp:20-27 *)
Definition one_char_except_c_11 (cs : list char) : pfun :=
  accept_when one_char (is_none_c cs) unexpected_character.

(** [impl::is_noneN<T0, ..., TN-1>], cpp98/impl/is_none.hpp:27-61: compares
    with the last character first; [is_none0] does not look at its argument. *)
Fixpoint is_none_98 (n : nat) (cs : list char) (v : value) : option bool :=
  match n with
  | O => Some true
  | S n' =>
      match as_int v, nth_error cs n' with
      | Some d, Some c => if d =? c then Some false else is_none_98 n' cs v
      | _, _ => None
      end
  end.

(** [one_char_except_c<C0, ..., Cn-1>], cpp98/one_char_except_c.hpp:34-87, and
    [one_char_except<C0, ..., Cn-1>], cpp98/one_char_except.hpp:31-76: defined
    for n < LIMIT_ONE_CHAR_EXCEPT_SIZE *)
Definition one_char_except_c_98 (lim : nat) (cs : list char) : pfun := fun s ps =>
  if Nat.ltb (length cs) lim
  then accept_when one_char (is_none_98 (length cs) cs) unexpected_character s ps
  else Illformed.

(** one_char_except_c.hpp, one_char_except.hpp *)
Definition one_char_except_c (cfg : config) (cs : list char) : pfun :=
  match cfg_std cfg with
  | Std98 => one_char_except_c_98 (limit_one_char_except cfg) cs
  | Std11 | Std14 => one_char_except_c_11 cs
  end.
