(** Compile-time strings: the variadic string (cpp11/), the fixed capacity
    string (cpp98/), the iterators and BOOST_METAPARSE_STRING, and
    /repo/tools/string_headers.py which generates the tables behind it. *)

From Coq Require Import ZArith List Bool.
From Verif Require Import Base.
Import ListNotations.
Open Scope Z_scope.

(** ** The variadic string [string<Cs...>], cpp11/string.hpp:32-37 *)

(** [std::is_same] of two strings *)
Fixpoint same_chars (a b : str) : bool :=
  match a, b with
  | [], [] => true
  | x :: a', y :: b' => (x =? y) && same_chars a' b'
  | _, _ => false
  end.

(** [impl::size], cpp11/impl/size.hpp:23-27 *)
Definition size_11 (s : str) : Z := Z.of_nat (length s).

(** [impl::at_c<S, N>], cpp11/impl/at_c.hpp:21-28; only declared for the empty
    string *)
Fixpoint at_c_11 (s : str) (n : Z) : option char :=
  match s with
  | [] => None
  | c :: s' => if n =? 0 then Some c else at_c_11 s' (n - 1)
  end.

(** [impl::push_back_c], cpp11/impl/push_back_c.hpp:19-23 *)
Definition push_back_c_11 (s : str) (c : char) : str := s ++ [c].

(** [impl::push_front_c], cpp11/impl/push_front_c.hpp:19-23 *)
Definition push_front_c_11 (s : str) (c : char) : str := c :: s.

(** [impl::pop_front], cpp11/impl/pop_front.hpp:19-23 *)
Definition pop_front_11 (s : str) : option str :=
  match s with
  | [] => None
  | _ :: s' => Some s'
  end.

(** [mpl::clear], cpp11/string.hpp:112-123 *)
Definition clear_11 (s : str) : str := [].

(** [impl::pop_back], cpp11/impl/pop_back.hpp:23-32 *)
Fixpoint pop_back_11 (s : str) : option str :=
  match s with
  | [] => None
  | c :: s' =>
      match s' with
      | [] => Some (clear_11 [c])
      | _ :: _ =>
          match pop_back_11 s' with
          | Some t => Some (push_front_c_11 t c)
          | None => None
          end
      end
  end.

(** [impl::concat], cpp11/impl/concat.hpp:19-23 *)
Definition concat_11 (a b : str) : str := a ++ b.

(** [mpl::equal_to], cpp11/string.hpp:158-186 *)
Definition equal_to_11 (a b : str) : bool := same_chars a b.

(** [mpl::c_str], cpp11/string.hpp:188-205: the array [value] *)
Definition c_str_11 (s : str) : list char :=
  match s with
  | [] => [0]            (* impl/empty_string.hpp:17-26 *)
  | _ :: _ => s ++ [0]
  end.

(** ** Iterators, impl/string_iterator.hpp:27-154.  [S] is the type of strings,
    so the definitions serve both representations. *)

Record string_iterator (S : Type) : Type := mkit { it_str : S; it_pos : Z }.
Arguments mkit {S}.
Arguments it_str {S}.
Arguments it_pos {S}.

(** [impl::advance_c], [mpl::next], [mpl::prior], string_iterator.hpp:38-44,
    99-115 *)
Definition it_advance {S} (i : string_iterator S) (k : Z) :=
  mkit (it_str i) (it_pos i + k).
Definition it_next {S} (i : string_iterator S) := mkit (it_str i) (it_pos i + 1).
Definition it_prior {S} (i : string_iterator S) := mkit (it_str i) (it_pos i - 1).

(** [mpl::deref], string_iterator.hpp:117-124 *)
Definition it_deref {S} (at_c : S -> Z -> option char) (i : string_iterator S) :=
  at_c (it_str i) (it_pos i).

(** [impl::distance], string_iterator.hpp:48-54: defined for iterators of one
    string only *)
Definition it_distance {S} (same : S -> S -> bool) (a b : string_iterator S) : option Z :=
  if same (it_str a) (it_str b) then Some (it_pos b - it_pos a) else None.

(** [mpl::equal_to] on iterators (is_same), string_iterator.hpp:126-140 *)
Definition it_equal {S} (same : S -> S -> bool) (a b : string_iterator S) : bool :=
  same (it_str a) (it_str b) && (it_pos a =? it_pos b).

(** [mpl::begin], [mpl::end], cpp11/string.hpp:125-156 *)
Definition begin_11 (s : str) : string_iterator str := mkit s 0.
Definition end_11 (s : str) : string_iterator str := mkit s (size_11 s).

(** The characters an algorithm that goes from [i] to [e] sees (mpl::fold and
    the like); [None] if dereferencing is ill-formed or [n] steps are not
    enough. *)
Fixpoint iterate_chars {S} (same : S -> S -> bool) (at_c : S -> Z -> option char)
  (n : nat) (i e : string_iterator S) : option (list char) :=
  if it_equal same i e then Some []
  else
    match n with
    | O => None
    | Datatypes.S n' =>
        match it_deref at_c i, iterate_chars same at_c n' (it_next i) e with
        | Some c, Some cs => Some (c :: cs)
        | _, _ => None
        end
    end.

(** [mpl::empty], [mpl::front] and [mpl::pop_front], the operations the parsers
    use (one_char.hpp:46-64): [mpl::empty] compares the iterators, [mpl::front]
    dereferences [begin]. *)
Definition empty_11 (s : str) : option bool :=
  Some (it_equal same_chars (begin_11 s) (end_11 s)).
Definition front_11 (s : str) : option char := it_deref at_c_11 (begin_11 s).

(** ** The C++98 string: [LIMIT_STRING_SIZE] template arguments of type [int]
    with the default [BOOST_NO_CHAR] (cpp98/fwd/string.hpp:20-28,
    cpp98/string.hpp:37-43).  The model is the list of all the arguments. *)

(** [BOOST_NO_CHAR] is [EOF], impl/no_char.hpp:14; -1 in all implementations *)
Definition no_char : Z := -1.

(** [string<c0, ..., ck>]: the rest of the arguments defaulted *)
Definition string_98 (lim : nat) (s : str) : list Z :=
  s ++ repeat no_char (lim - length s).

(** [impl::size], cpp98/impl/size.hpp:28-54: a partial specialisation for every
    n < LIMIT whose last LIMIT - n arguments are [BOOST_NO_CHAR]; the one with
    the smallest n is the most specialised. *)
Fixpoint all_no_char (l : list Z) : bool :=
  match l with
  | [] => true
  | c :: l' => (c =? no_char) && all_no_char l'
  end.
Fixpoint size_98_from (n : nat) (l : list Z) : option Z :=
  match l with
  | [] => None
  | c :: l' => if all_no_char l then Some (Z.of_nat n) else size_98_from (S n) l'
  end.
Definition size_98 (l : list Z) : option Z := size_98_from 0 l.

(** [impl::at_c], cpp98/impl/at_c.hpp:25-49: defined for 0 <= N < LIMIT *)
Definition at_c_98 (l : list Z) (n : Z) : option char :=
  if (0 <=? n) && (n <? Z.of_nat (length l))
  then nth_error l (Z.to_nat n) else None.

(** [impl::update_c], cpp98/impl/update_c.hpp:27-64: the last argument is only
    passed on if it is the updated one. *)
Definition update_c_98 (lim : nat) (l : list Z) (n : Z) (c : Z) : option (list Z) :=
  if (0 <=? n) && (n <? Z.of_nat lim) then
    let k := Z.to_nat n in
    Some (string_98 lim
            (firstn k l ++ [c] ++ firstn (lim - 1 - (k + 1)) (skipn (k + 1) l)))
  else None.

(** [impl::push_back_c], cpp98/impl/push_back_c.hpp:24-27 *)
Definition push_back_c_98 (lim : nat) (l : list Z) (c : char) : option (list Z) :=
  match size_98 l with
  | Some n => update_c_98 lim l n c
  | None => None
  end.

(** [impl::pop_back], cpp98/impl/pop_back.hpp:25-32 *)
Definition pop_back_98 (lim : nat) (l : list Z) : option (list Z) :=
  match size_98 l with
  | Some n => update_c_98 lim l (n - 1) no_char
  | None => None
  end.

(** [impl::push_front_c], cpp98/impl/push_front_c.hpp:22-40 *)
Definition push_front_c_98 (lim : nat) (l : list Z) (c : char) : list Z :=
  c :: firstn (lim - 1) l.

(** [impl::pop_front], cpp98/impl/pop_front.hpp:31-47 *)
Definition pop_front_98 (l : list Z) : list Z := skipn 1 l ++ [no_char].

(** [mpl::clear], cpp98/string.hpp:118-129 *)
Definition clear_98 (lim : nat) : list Z := string_98 lim [].

(** [mpl::equal_to] (is_same), cpp98/string.hpp:164-192 *)
Definition equal_to_98 (a b : list Z) : bool := same_chars a b.

(** [mpl::c_str], cpp98/string.hpp:194-265: the array [value]; the
    specialisation for n = 1 .. LIMIT-1, for the empty string and the general
    one *)
Definition c_str_98 (l : list Z) : list char :=
  match size_98 l with
  | Some n => firstn (Z.to_nat n) l ++ [0]
  | None => l ++ [0]
  end.

(** [mpl::begin], [mpl::end], cpp98/string.hpp:131-162 *)
Definition begin_98 (l : list Z) : string_iterator (list Z) := mkit l 0.
Definition end_98 (l : list Z) : option (string_iterator (list Z)) :=
  match size_98 l with Some n => Some (mkit l n) | None => None end.

(** [mpl::empty] and [mpl::front] *)
Definition empty_98 (l : list Z) : option bool :=
  match end_98 l with
  | Some e => Some (it_equal same_chars (begin_98 l) e)
  | None => None
  end.
Definition front_98 (l : list Z) : option char := it_deref at_c_98 (begin_98 l).

(** ** BOOST_METAPARSE_STRING *)

(** [impl::take], cpp11/impl/string.hpp:19-22 *)
Definition take (n : Z) : Z :=
  if 512 <=? n then 512 else
  if 256 <=? n then 256 else
  if 128 <=? n then 128 else
  if 64 <=? n then 64 else
  if 32 <=? n then 32 else
  if 16 <=? n then 16 else
  if 8 <=? n then 8 else
  if 4 <=? n then 4 else
  if 2 <=? n then 2 else
  if 1 <=? n then 1 else 0.

(** The values of [LenNow] with a specialisation of [make_string] *)
Definition steps : list Z := [1; 2; 4; 8; 16; 32; 64; 128; 256; 512].

(** [impl::make_string<LenNow, LenRemaining, Cs...>],
    cpp11/impl/string.hpp:24-39 (for compilers other than __SUNPRO_CC).  [fuel]
    bounds the recursion depth. *)
Fixpoint make_string (fuel : nat) (now remaining : Z) (cs : str) : option str :=
  match fuel with
  | O => None
  | S fuel' =>
      if now =? 0 then
        if remaining =? 0 then Some [] else None
      else if existsb (Z.eqb now) steps && (now <=? Z.of_nat (length cs)) then
        match make_string fuel' (take remaining) (remaining - take remaining)
                (skipn (Z.to_nat now) cs) with
        | Some t => Some (concat_11 (firstn (Z.to_nat now) cs) t)
        | None => None
        end
      else None
  end.

(** [impl::string_at<MaxLen>(s, n)], cpp11/impl/string_at.hpp:19-26, on the
    literal of the characters [lit] (followed by the terminating 0): [None] is
    the static assertion. *)
Definition string_at (max_len : Z) (lit : str) (n : Z) : option char :=
  let len := Z.of_nat (length lit) + 1 in
  if len <=? max_len + 1 then
    Some (if len - 1 <=? n then 0 else nth (Z.to_nat n) lit 0)
  else None.

(** All of a list of template arguments, or an error. *)
Fixpoint all_some {A : Type} (l : list (option A)) : option (list A) :=
  match l with
  | [] => Some []
  | Some x :: l' => match all_some l' with Some r => Some (x :: r) | None => None end
  | None :: _ => None
  end.

(** ** /repo/tools/string_headers.py *)

(** Python's [xrange(start, stop, step)] for a positive step *)
Definition xrange (start stop step : Z) : list Z :=
  map (fun i => start + Z.of_nat i * step)
    (seq 0 (Z.to_nat ((stop - start + step - 1) / step))).

(** [length_limits], string_headers.py:127-138 (the conversion to zero-padded
    text and back is left out) *)
Definition length_limits (max_length_limit length_limit_step : Z) : list Z :=
  xrange length_limit_step (max_length_limit + length_limit_step - 1)
    length_limit_step.

(** [max(...)]; an exception for an empty list *)
Definition py_max (l : list Z) : option Z :=
  match l with
  | [] => None
  | x :: l' => Some (fold_left Z.max l' x)
  end.
Definition py_min (l : list Z) : option Z :=
  match l with
  | [] => None
  | x :: l' => Some (fold_left Z.min l' x)
  end.

(** The macro [I<limit>], string_headers.py:246-255 *)
Definition index_macro (limits : list Z) (limit : Z) : option Z :=
  py_min (filter (fun l => limit <=? l) limits).

(** The macros [INDEX_STR<n>], string_headers.py:258-275: the indices used by
    the macro for each element of [limits] *)
Fixpoint index_strs (prev_indices : list Z) (prev_limit : Z) (limits : list Z)
  : list (Z * list Z) :=
  match limits with
  | [] => []
  | l :: limits' =>
      let this := prev_indices ++ xrange prev_limit l 1 in
      (l, this) :: index_strs this l limits'
  end.
Definition index_str (limits : list Z) (n : Z) : option (list Z) :=
  match find (fun e => fst e =? n) (index_strs [] 0 limits) with
  | Some e => Some (snd e)
  | None => None
  end.

(** BOOST_METAPARSE_STRING(lit) with the headers generated for [limits] and
    BOOST_METAPARSE_LIMIT_STRING_SIZE = [limit], cpp11/impl/string.hpp:45-56,
    string_headers.py:202-243. *)
Definition metaparse_string (limits : list Z) (limit : Z) (lit : str) : option str :=
  match py_max limits with
  | None => None
  | Some max_limit =>
      if max_limit <? limit then None     (* #error *)
      else
        match index_macro limits limit with
        | None => None
        | Some n =>
            match index_str limits n with
            | None => None
            | Some idx =>
                let len := Z.of_nat (length lit) in
                match all_some (map (string_at limit lit) idx) with
                | None => None
                | Some cs =>
                    make_string (S (length lit)) (take len) (len - take len) cs
                end
            end
        end
  end.

(** The headers in the repository, cpp11/impl/string.hpp:58-2123: generated
    with the default arguments (string_headers.py:304-317). *)
Definition shipped_limits : list Z := length_limits 2048 128.
