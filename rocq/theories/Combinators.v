(** Parsers and parser combinators whose implementation is shared by all
    language standards.  One function per header.

    Conventions: a combinator evaluates its argument parsers in the order the
    templates force them; a result that can not be instantiated ([Illformed],
    [OutOfFuel]) makes the combinator uninstantiable too ([o => o] cases).
    Functions with unbounded recursion take the recursion depth bound [n]. *)

From Coq Require Import ZArith List Bool.
From Verif Require Import Base Util.
Import ListNotations.
Open Scope Z_scope.

(** ** Basic parsers *)

(** [return_<C>], return_.hpp:21-28 *)
Definition return_ (v : value) : pfun := fun s ps => Accept v s ps.

(** [fail<Msg>], fail.hpp:17-24 *)
Definition fail (m : msg) : pfun := fun _ ps => Reject m ps.

(** [one_char::next_pos], one_char.hpp:31-44 *)
Definition next_pos (c : char) (ps : pos) : pos :=
  if (c =? c_cr) || ((c =? c_lf) && negb (prev ps =? c_cr))
  then next_line ps c
  else next_char ps c.

(** [one_char], one_char.hpp:28-65 *)
Definition one_char : pfun := fun s ps =>
  match s with
  | [] => Reject unexpected_end_of_input ps
  | c :: s' => Accept (VChar c) s' (next_pos c ps)
  end.

(** [empty<Result>], empty.hpp:23-36 *)
Definition empty (r : value) : pfun := fun s ps =>
  match s with
  | [] => Accept r s ps
  | _ :: _ => Reject end_of_input_expected ps
  end.

(** ** Combinators without recursion *)

(** [accept_when<P, Pred, Msg>], accept_when.hpp:22-53 *)
Definition accept_when (p : pfun) (pr : pred1) (m : msg) : pfun := fun s ps =>
  match p s ps with
  | Accept r s' ps' =>
      match pr r with
      | Some true => Accept r s' ps'
      | Some false => Reject m ps
      | None => Illformed
      end
  | o => o
  end.

(** [change_error_message<P, Msg>], change_error_message.hpp:20-33: the new
    error is at the position where [P] was applied. *)
Definition change_error_message (p : pfun) (m : msg) : pfun := fun s ps =>
  match p s ps with
  | Reject _ _ => Reject m ps
  | o => o
  end.

(** [transform<P, T>], transform.hpp:23-44 *)
Definition transform (p : pfun) (f : mf1) : pfun := fun s ps =>
  match p s ps with
  | Accept r s' ps' =>
      match f r with
      | Some v => Accept v s' ps'
      | None => Illformed
      end
  | o => o
  end.

(** [transform_error<P, F>], transform_error.hpp:19-34: [F] is applied to the
    rejection; whatever it returns is the result. *)
Definition transform_error (p : pfun) (f : msg -> pos -> outcome) : pfun :=
  fun s ps =>
  match p s ps with
  | Reject m ps' => f m ps'
  | o => o
  end.

(** [transform_error_message<P, F>], transform_error_message.hpp:22-43 *)
Definition transform_error_message (p : pfun) (f : mfmsg) : pfun := fun s ps =>
  match p s ps with
  | Reject m ps' =>
      match f m with
      | Some m' => Reject m' ps'
      | None => Illformed
      end
  | o => o
  end.

(** [always<P, Result>], always.hpp:22-45; [always_c<C, Result>] is
    [always<lit_c<C>, Result>], always_c.hpp:18-19 *)
Definition always (p : pfun) (v : value) : pfun := fun s ps =>
  match p s ps with
  | Accept _ s' ps' => Accept v s' ps'
  | o => o
  end.

(** [look_ahead<P>], look_ahead.hpp:21-44 *)
Definition look_ahead (p : pfun) : pfun := fun s ps =>
  match p s ps with
  | Accept r _ _ => Accept r s ps
  | o => o
  end.

(** [optional<P, Default>], optional.hpp:20-34 *)
Definition optional (p : pfun) (d : value) : pfun := fun s ps =>
  match p s ps with
  | Reject _ _ => Accept d s ps
  | o => o
  end.

(** [except<P, Result, ErrorMsg>], except.hpp:21-34 *)
Definition except (p : pfun) (v : value) (m : msg) : pfun := fun s ps =>
  match p s ps with
  | Reject _ _ => Accept v s ps
  | Accept _ _ _ => Reject m ps
  | o => o
  end.

(** [if_<P, T, F>], if_.hpp:20-37 *)
Definition if_ (p : pfun) (t f : value) : pfun := fun s ps =>
  match p s ps with
  | Reject _ _ => Accept f s ps
  | Accept _ _ _ => Accept t s ps
  | o => o
  end.

(** [fail_at_first_char_expected<P>], fail_at_first_char_expected.hpp:26-52 *)
Definition fail_at_first_char_expected (p : pfun) : pfun := fun s ps =>
  match p s ps with
  | Reject m ps' =>
      if pos_equal_to ps ps' then Accept VVoid_ s ps else Reject m ps'
  | Accept _ _ _ => Reject expected_to_fail ps
  | o => o
  end.

(** [lit_c<C>], lit_c.hpp:21-28; [lit<C>], lit.hpp:17-18 *)
Definition lit_c (c : char) : pfun :=
  accept_when (change_error_message one_char (literal_expected c))
    (is_char_c c) (literal_expected c).

(** [keyword<Kw, ResultType>], keyword.hpp:28-76 *)
Fixpoint keyword (kw : str) (r : value) : pfun :=
  match kw with
  | [] => return_ r
  | c :: kw' => fun s ps =>
      match lit_c c s ps with
      | Accept _ s' ps' => keyword kw' r s' ps'
      | o => o
      end
  end.

(** ** Folds *)

(** [foldl<P, State, ForwardOp>], foldl.hpp:23-59.  [State] is only forced
    ([State::type]) when the next element arrives or when the fold stops; it is
    [None] when forcing it is ill-formed. *)
Fixpoint foldl (n : nat) (p : pfun) (st : option value) (f : mf2)
  (s : str) (ps : pos) : outcome :=
  match n with
  | O => OutOfFuel
  | S n' =>
      match p s ps with
      | Reject _ _ =>
          match st with Some v => Accept v s ps | None => Illformed end
      | Accept r s' ps' =>
          match st with
          | Some v => foldl n' p (f v r) f s' ps'
          | None => Illformed
          end
      | o => o
      end
  end.

(** [foldl1<P, State, ForwardOp>], foldl1.hpp:19-32 *)
Definition foldl1 (n : nat) (p : pfun) (st : option value) (f : mf2) : pfun :=
  fun s ps =>
  match p s ps with
  | Accept _ _ _ => foldl n p st f s ps
  | o => o
  end.

(** [foldl_reject_incomplete<P, State, ForwardOp>],
    foldl_reject_incomplete.hpp:24-71 *)
Fixpoint foldl_reject_incomplete (n : nat) (p : pfun) (st : option value)
  (f : mf2) (s : str) (ps : pos) : outcome :=
  match n with
  | O => OutOfFuel
  | S n' =>
      match p s ps with
      | Reject m ps' =>
          if pos_equal_to ps ps'
          then match st with Some v => Accept v s ps | None => Illformed end
          else Reject m ps'
      | Accept r s' ps' =>
          match st with
          | Some v => foldl_reject_incomplete n' p (f v r) f s' ps'
          | None => Illformed
          end
      | o => o
      end
  end.

(** [foldl_reject_incomplete1], foldl_reject_incomplete1.hpp:19-32 *)
Definition foldl_reject_incomplete1 (n : nat) (p : pfun) (st : option value)
  (f : mf2) : pfun := fun s ps =>
  match p s ps with
  | Accept _ _ _ => foldl_reject_incomplete n p st f s ps
  | o => o
  end.

(** [foldl_start_with_parser<P, StateP, ForwardOp>],
    foldl_start_with_parser.hpp:17-39; the result of [StateP] becomes the [State] of
    [foldl], of which [State::type] is used. *)
Definition foldl_start_with_parser (n : nat) (p sp : pfun) (f : mf2) : pfun :=
  fun s ps =>
  match sp s ps with
  | Accept r s' ps' => foldl n p (type_of r) f s' ps'
  | o => o
  end.

(** [foldl_reject_incomplete_start_with_parser],
    foldl_reject_incomplete_start_with_parser.hpp:23-49 *)
Definition foldl_reject_incomplete_start_with_parser (n : nat) (p sp : pfun)
  (f : mf2) : pfun := fun s ps =>
  match sp s ps with
  | Accept r s' ps' => foldl_reject_incomplete n p (type_of r) f s' ps'
  | o => o
  end.

(** [foldr_start_with_parser<P, StateP, BackwardOp>],
    foldr_start_with_parser.hpp:23-72 *)
Fixpoint foldr_start_with_parser (n : nat) (p sp : pfun) (f : mf2)
  (s : str) (ps : pos) : outcome :=
  match n with
  | O => OutOfFuel
  | S n' =>
      match p s ps with
      | Reject _ _ => sp s ps
      | Accept r s' ps' =>
          match foldr_start_with_parser n' p sp f s' ps' with
          | Accept v s2 ps2 =>
              match f v r with
              | Some w => Accept w s2 ps2
              | None => Illformed
              end
          | o => o
          end
      | o => o
      end
  end.

(** [foldr<P, State, BackwardOp>], foldr.hpp:18-19 *)
Definition foldr (n : nat) (p : pfun) (st : value) (f : mf2) : pfun :=
  foldr_start_with_parser n p (return_ st) f.

(** [foldr1<P, State, BackwardOp>], foldr1.hpp:19-32 *)
Definition foldr1 (n : nat) (p : pfun) (st : value) (f : mf2) : pfun :=
  fun s ps =>
  match p s ps with
  | Accept _ _ _ => foldr n p st f s ps
  | o => o
  end.

(** [repeated<P>], repeated.hpp:20-21 *)
Definition repeated (n : nat) (p : pfun) : pfun :=
  foldl n p (Some (VSeq [])) back_inserter.

(** [repeated1<P>], repeated1.hpp:20-23 *)
Definition repeated1 (n : nat) (p : pfun) : pfun :=
  foldl1 n p (Some (VSeq [])) back_inserter.

(** [repeated_reject_incomplete<P>], repeated_reject_incomplete.hpp:20-23 *)
Definition repeated_reject_incomplete (n : nat) (p : pfun) : pfun :=
  foldl_reject_incomplete n p (Some (VSeq [])) back_inserter.

(** [repeated_reject_incomplete1<P>], repeated_reject_incomplete1.hpp:20-23 *)
Definition repeated_reject_incomplete1 (n : nat) (p : pfun) : pfun :=
  foldl_reject_incomplete1 n p (Some (VSeq [])) back_inserter.

(** [impl::iterate_impl<N, P, Accum>], impl/iterate_impl.hpp:23-39 and
    impl/iterate_impl_unchecked.hpp:24-37.  Simplification: [N - 1] does not
    overflow for negative [N]. *)
Fixpoint iterate_impl (n : nat) (k : Z) (p : pfun) (acc : value)
  (s : str) (ps : pos) : outcome :=
  match n with
  | O => OutOfFuel
  | S n' =>
      if k =? 0 then return_ acc s ps
      else
        match p s ps with
        | Accept r s' ps' =>
            match push_back acc r with
            | Some acc' => iterate_impl n' (k - 1) p acc' s' ps'
            | None => Illformed
            end
        | o => o
        end
  end.

(** [iterate_c<P, N>], iterate_c.hpp:19-20; [iterate<P, N>], iterate.hpp:17-18 *)
Definition iterate_c (n : nat) (p : pfun) (k : Z) : pfun :=
  iterate_impl n k p (VSeq []).

(** ** Running a parser on a complete program text *)

(** What [build_parser<P>::apply<S>] does (build_parser.hpp:28-60): it has the
    parsing result as [type], or instantiates
    [x__________________PARSING_FAILED__________________x<Line, Col, Msg>], which
    is a compilation error showing the three arguments. *)
Inductive build_result : Set :=
| Built (v : value)
| ParsingFailed (l c : Z) (m : msg)
| BuildIllformed
| BuildOutOfFuel.

Definition build_parser (p : pfun) (s : str) : build_result :=
  match p s start with
  | Accept r _ _ => Built r
  | Reject m ps => ParsingFailed (line ps) (col ps) m
  | Illformed => BuildIllformed
  | OutOfFuel => BuildOutOfFuel
  end.
