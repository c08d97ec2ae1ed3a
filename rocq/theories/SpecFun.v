(** Expressions of one variable: text and value.  Only the types of Base.v and the
    vocabulary of Spec.v, SpecCalc.v and SpecExamples.v are used. *)

From Coq Require Import ZArith List Bool QArith.
From Verif Require Import Base Spec SpecCalc SpecExamples.
Import ListNotations.
Open Scope Z_scope.

(** ** Text *)

Inductive fexp : Type :=
| FNum (ds : str)
| FArg
| FBin (o : cop) (a b : fexp).

(** [s] starts with [c] and all the whitespace after it, [t] follows. *)
Definition char_token_text (c : char) (s t : str) : Prop :=
  exists w, s = c :: w ++ t /\ Forall space_char w /\ not_starting_with space_char t.

(** [s] starts with a number or, if there is a variable, with _ (and whitespace). *)
Inductive operand_text (var : bool) : fexp -> str -> str -> Prop :=
| ot_num : forall ds w t s, leading_number ds w t s -> operand_text var (FNum ds) s t
| ot_arg : forall s t, var = true -> char_token_text 95 s t -> operand_text var FArg s t.

(** [s] starts with operands [X] connected by the operators [o1] and [o2], grouped
    to the left. *)
Inductive chain_text (o1 o2 : cop) (X : fexp -> str -> str -> Prop) : fexp -> str -> str -> Prop :=
| ct_one : forall e s t, X e s t -> chain_text o1 o2 X e s t
| ct_more : forall o a b s s1 s2 t, o = o1 \/ o = o2 ->
    chain_text o1 o2 X a s s1 -> char_token_text (op_of o) s1 s2 -> X b s2 t ->
    chain_text o1 o2 X (FBin o a b) s t.

Definition product_text (var : bool) := chain_text Mul Div (operand_text var).
Definition sum_text (var : bool) := chain_text Add Sub (product_text var).

(** [s] is the text of [e], maybe with whitespace in front. *)
Definition exp_text (var : bool) (e : fexp) (s : str) : Prop := sum_text var e s [].
Definition spaced_text (var : bool) (e : fexp) (s : str) : Prop :=
  exists w t, s = w ++ t /\ Forall space_char w /\ exp_text var e t.

(** ** Values *)

(** What [int]s give: [z] if the operation is defined and the result an [int]. *)
Definition int_op (o : cop) (x y z : Z) : Prop :=
  is_int z /\
  match o with
  | Add => z = x + y
  | Sub => z = x - y
  | Mul => z = x * y
  | Div => quotient x y z
  end.

(** The value of [e] if the variable is [x]; every number on the way is an [int]. *)
Inductive fmeans (x : Z) : fexp -> Z -> Prop :=
| fm_num : forall ds, is_int (decimal ds) -> fmeans x (FNum ds) (decimal ds)
| fm_arg : fmeans x FArg x
| fm_bin : forall o a b y z r, fmeans x a y -> fmeans x b z -> int_op o y z r ->
    fmeans x (FBin o a b) r.

Fixpoint literals_fit (e : fexp) : Prop :=
  match e with
  | FNum ds => is_int (decimal ds)
  | FArg => True
  | FBin _ a b => literals_fit a /\ literals_fit b
  end.

Definition literal_exp (e : fexp) : Prop := exists ds, e = FNum ds.

(** The value of [e] in a type [T] if the variable is [t]: two literals are combined
    as [int]s, everything else in [T]. *)
Inductive computes {T : Type} (op : cop -> T -> T -> option T) (conv : Z -> T) (t : T)
  : fexp -> T -> Prop :=
| cp_num : forall ds, computes op conv t (FNum ds) (conv (decimal ds))
| cp_arg : computes op conv t FArg t
| cp_literals : forall o ds ds' z, int_op o (decimal ds) (decimal ds') z ->
    computes op conv t (FBin o (FNum ds) (FNum ds')) (conv z)
| cp_other : forall o a b x y z, ~ (literal_exp a /\ literal_exp b) ->
    computes op conv t a x -> computes op conv t b y -> op o x y = Some z ->
    computes op conv t (FBin o a b) z.

(** The rational numbers. *)
Definition q_op (o : cop) (x y : Q) : option Q :=
  match o with
  | Add => Some (x + y)%Q
  | Sub => Some (x - y)%Q
  | Mul => Some (x * y)%Q
  | Div => if Qeq_bool y 0 then None else Some (x / y)%Q
  end.

(** The value of [e] in the rational numbers. *)
Inductive qmeans (t : Q) : fexp -> Q -> Prop :=
| qm_num : forall ds, qmeans t (FNum ds) (inject_Z (decimal ds))
| qm_arg : qmeans t FArg t
| qm_bin : forall o a b x y z, qmeans t a x -> qmeans t b y -> q_op o x y = Some z ->
    qmeans t (FBin o a b) z.

(** Nowhere are two literals combined. *)
Fixpoint no_literal_pair (e : fexp) : Prop :=
  match e with
  | FNum _ | FArg => True
  | FBin _ a b => ~ (literal_exp a /\ literal_exp b) /\ no_literal_pair a /\ no_literal_pair b
  end.

(** The value of [e] if at every operator both operations of its level have to be
    defined. *)
Definition partner (o : cop) : cop :=
  match o with Add => Sub | Sub => Add | Mul => Div | Div => Mul end.
Inductive eager_means : fexp -> Z -> Prop :=
| em_num : forall ds, is_int (decimal ds) -> eager_means (FNum ds) (decimal ds)
| em_bin : forall o a b y z r r', eager_means a y -> eager_means b z ->
    int_op o y z r -> int_op (partner o) y z r' -> eager_means (FBin o a b) r.
