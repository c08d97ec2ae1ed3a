(** Specification vocabulary.  Nothing here refers to the combinators of the
    model; only the types of Base.v are used. *)

From Coq Require Import ZArith List Bool.
From Coq Require Ascii String.
Export String.StringSyntax.
From Verif Require Import Base.
Import ListNotations.
Open Scope Z_scope.

(** ** Positions and texts *)

(** The position reached from [ps] by reading the text [w]: a carriage return,
    or a line feed that does not directly follow a carriage return, starts a new
    line; everything else moves one column to the right. *)
Definition starts_new_line (before c : char) : Prop :=
  c = 13 \/ (c = 10 /\ before <> 13).

Inductive walk : pos -> str -> pos -> Prop :=
| walk_nil : forall ps, walk ps [] ps
| walk_newline : forall l k b c w ps',
    starts_new_line b c ->
    walk (mkpos (l + 1) 1 c) w ps' ->
    walk (mkpos l k b) (c :: w) ps'
| walk_char : forall l k b c w ps',
    ~ starts_new_line b c ->
    walk (mkpos l (k + 1) c) w ps' ->
    walk (mkpos l k b) (c :: w) ps'.

Definition is_eol (c : char) : bool := (c =? 10) || (c =? 13).

(** The number of line terminators of a text: LF, CR and CR LF. *)
Fixpoint terminators (w : str) : Z :=
  match w with
  | [] => 0
  | c :: w' =>
      if c =? 13 then
        match w' with
        | d :: _ => if d =? 10 then terminators w' else 1 + terminators w'
        | [] => 1
        end
      else if c =? 10 then 1 + terminators w'
      else terminators w'
  end.

(** The text after the last line terminator. *)
Fixpoint last_line (w : str) : str :=
  match w with
  | [] => []
  | c :: w' =>
      if existsb is_eol w' then last_line w'
      else if is_eol c then w'
      else c :: w'
  end.

(** The last line terminator of the text is CR LF. *)
Definition last_terminator_is_crlf (w : str) : Prop :=
  exists a b, w = a ++ 13 :: 10 :: b /\ existsb is_eol b = false.

(** [u] is a prefix of [w]. *)
Definition prefix (u w : str) : Prop := exists rest, w = u ++ rest.

(** ** Parser behaviour *)

(** Both parsers behave the same on everything. *)
Definition same_parser (p q : pfun) : Prop := forall s ps, p s ps = q s ps.

(** The parser accepts / rejects here. *)
Definition accepts (p : pfun) (s : str) (ps : pos) : Prop :=
  exists r s' ps', p s ps = Accept r s' ps'.
Definition rejects (p : pfun) (s : str) (ps : pos) : Prop :=
  exists m ps', p s ps = Reject m ps'.
(** The instantiation finishes without a compilation error. *)
Definition finishes (p : pfun) (s : str) (ps : pos) : Prop :=
  accepts p s ps \/ rejects p s ps.

(** [p] accepts [rs] one after the other, going from [(s, ps)] to [(s', ps')]. *)
Inductive runs (p : pfun) : str -> pos -> list value -> str -> pos -> Prop :=
| runs_nil : forall s ps, runs p s ps [] s ps
| runs_cons : forall s ps r s1 ps1 rs s2 ps2,
    p s ps = Accept r s1 ps1 ->
    runs p s1 ps1 rs s2 ps2 ->
    runs p s ps (r :: rs) s2 ps2.

(** The parsers [l] accept one after the other with the results [rs]. *)
Inductive in_row : list pfun -> str -> pos -> list value -> str -> pos -> Prop :=
| in_row_nil : forall s ps, in_row [] s ps [] s ps
| in_row_cons : forall p l s ps r s1 ps1 rs s2 ps2,
    p s ps = Accept r s1 ps1 ->
    in_row l s1 ps1 rs s2 ps2 ->
    in_row (p :: l) s ps (r :: rs) s2 ps2.

(** The first of the parsers [l] that does not accept, when they are run one
    after the other, is reached and gives [o]. *)
Definition first_failure (l : list pfun) (s : str) (ps : pos) (o : outcome) : Prop :=
  exists l1 p l2 rs s1 ps1,
    l = l1 ++ p :: l2 /\ in_row l1 s ps rs s1 ps1 /\ p s1 ps1 = o.

(** Left and right folds with a partial operation. *)
Fixpoint lfold (f : mf2) (rs : list value) (v : value) : option value :=
  match rs with
  | [] => Some v
  | r :: rs' =>
      match f v r with
      | Some v' => lfold f rs' v'
      | None => None
      end
  end.

Fixpoint rfold (f : mf2) (rs : list value) (v : value) : option value :=
  match rs with
  | [] => Some v
  | r :: rs' =>
      match rfold f rs' v with
      | Some x => f x r
      | None => None
      end
  end.

(** Every acceptance of [p] consumes something. *)
Definition consuming (p : pfun) : Prop :=
  forall s ps r s' ps', p s ps = Accept r s' ps' -> (length s' < length s)%nat.

(** ** Errors *)

Definition pos_lt (a b : pos) : Prop :=
  line a < line b
  \/ (line a = line b /\ (col a < col b
                         \/ (col a = col b /\ prev a < prev b))).

Definition pos_le (a b : pos) : Prop := pos_lt a b \/ a = b.

(** Of the errors [es], [e] is the last one of those at the furthest
    position. *)
Definition last_furthest (es : list (msg * pos)) (e : msg * pos) : Prop :=
  exists l1 l2, es = l1 ++ e :: l2
    /\ (forall x, In x l1 -> pos_le (snd x) (snd e))
    /\ (forall x, In x l2 -> pos_lt (snd x) (snd e)).

(** The parsers [l] reject with the errors [es] when applied at [(s, ps)]. *)
Definition all_reject (l : list pfun) (s : str) (ps : pos)
  (es : list (msg * pos)) : Prop :=
  Forall2 (fun p e => p s ps = Reject (fst e) (snd e)) l es.

(** The first parser of [l] that can not be instantiated gives [o]. *)
Definition first_unfinished (l : list pfun) (s : str) (ps : pos) (o : outcome) : Prop :=
  exists l1 p l2, l = l1 ++ p :: l2 /\ (forall q, In q l1 -> finishes q s ps)
    /\ p s ps = o /\ (o = Illformed \/ o = OutOfFuel).

(** The first parser of [l] that accepts gives [o]; all of them finish. *)
Definition first_accepting (l : list pfun) (s : str) (ps : pos) (o : outcome) : Prop :=
  (forall q, In q l -> finishes q s ps) /\
  exists l1 p l2, l = l1 ++ p :: l2 /\ (forall q, In q l1 -> rejects q s ps)
    /\ p s ps = o /\ accepts p s ps.

(** ** Texts *)

(** The value of a list of decimal digits read from the left. *)
Fixpoint decimal_acc (acc : Z) (ds : str) : Z :=
  match ds with
  | [] => acc
  | c :: ds' => decimal_acc (acc * 10 + (c - 48)) ds'
  end.
Definition decimal (ds : str) : Z := decimal_acc 0 ds.

(** The integral constants [char_<c>], [int_<n>] and [bool_<b>] and their numbers. *)
Inductive numeral : value -> Z -> Prop :=
| numeral_char : forall c, numeral (VChar c) c
| numeral_int : forall n, numeral (VInt n) n
| numeral_true : numeral (VBool true) 1
| numeral_false : numeral (VBool false) 0.

Definition digit_char (c : char) : Prop := 48 <= c <= 57.
Definition letter_char (c : char) : Prop := (97 <= c <= 122) \/ (65 <= c <= 90).
Definition space_char (c : char) : Prop := c = 32 \/ c = 13 \/ c = 10 \/ c = 9.

(** [s] does not start with a character of the class [P]. *)
Definition not_starting_with (P : char -> Prop) (s : str) : Prop :=
  match s with
  | [] => True
  | c :: _ => ~ P c
  end.


(** ** Build configurations *)

(** [k] parsers are within the limits of the C++98 templates; other standards
    have no limit. *)
Definition fits_sequence (cfg : config) (k : nat) : Prop :=
  cfg_std cfg = Std98 -> (k < limit_sequence cfg)%nat.
Definition fits_one_of (cfg : config) (k : nat) : Prop :=
  cfg_std cfg = Std98 -> (k <= limit_one_of cfg)%nat.
Definition fits_one_of_c (cfg : config) (k : nat) : Prop :=
  cfg_std cfg = Std98 -> (k < limit_one_of cfg)%nat.
Definition fits_one_char_except (cfg : config) (k : nat) : Prop :=
  cfg_std cfg = Std98 -> (k < limit_one_char_except cfg)%nat.

(** ** Parsers of one character *)

(** [p] accepts exactly the inputs whose first character is in the class [P],
    consumes that character and returns it; it rejects with [m_end] at the end
    of the input and with [m_char] on other characters, at the start position. *)
Definition char_class_parser (P : char -> Prop) (m_end m_char : msg) (p : pfun)
  : Prop :=
  (forall c s ps ps', P c -> walk ps [c] ps' -> p (c :: s) ps = Accept (VChar c) s ps')
  /\ (forall c s ps, ~ P c -> p (c :: s) ps = Reject m_char ps)
  /\ (forall ps, p [] ps = Reject m_end ps).

(** Outcomes that differ at most in the error message. *)
Definition same_but_message (a b : outcome) : Prop :=
  match a, b with
  | Reject _ p, Reject _ q => p = q
  | _, _ => a = b
  end.
Definition same_parser_but_message (p q : pfun) : Prop :=
  forall s ps, same_but_message (p s ps) (q s ps).

(** An operation that is defined for all arguments. *)
Definition total_op (f : mf2) : Prop := forall a b, exists v, f a b = Some v.
(** A parser that never returns [void]. *)
Definition never_void (p : pfun) : Prop := forall s ps s' ps', p s ps <> Accept VVoid s' ps'.

(** ** Writing texts in examples *)

(** The characters of a Coq string (with their ASCII codes). *)
Definition text (s : String.string) : str :=
  map (fun a => Z.of_nat (Ascii.nat_of_ascii a)) (String.list_ascii_of_string s).
Arguments text s%string_scope.
