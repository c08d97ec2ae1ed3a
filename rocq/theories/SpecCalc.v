(** Arithmetic expressions: tokens, grammar and value.  Only the types of Base.v
    and the vocabulary of Spec.v are used. *)

From Coq Require Import ZArith List Bool.
From Verif Require Import Base Spec.
Import ListNotations.
Open Scope Z_scope.

(** ** Tokens *)

Inductive ctok : Type :=
| CNum (ds : str)    (* a number, given by its digits *)
| COp (c : char).    (* an operator or a bracket *)

Definition op_char (c : char) : Prop := In c [43; 45; 42; 47; 40; 41].

Inductive clexeme : ctok -> str -> Prop :=
| cl_num : forall ds, ds <> [] -> Forall digit_char ds -> clexeme (CNum ds) ds
| cl_op : forall c, op_char c -> clexeme (COp c) [c].

Definition is_num (k : ctok) : Prop := exists ds, k = CNum ds.

(** [s] consists of the tokens [ts], each followed by all the whitespace that
    is there, and of [rem].  A number ends where no digit follows. *)
Inductive tokens : str -> list ctok -> str -> Prop :=
| tk_nil : forall s, tokens s [] s
| tk_cons : forall k l w t ts rem,
    clexeme k l -> Forall space_char w -> not_starting_with space_char t ->
    (is_num k -> w = [] -> not_starting_with digit_char t) ->
    tokens t ts rem -> tokens (l ++ w ++ t) (k :: ts) rem.

(** ** Expressions *)

Inductive cop : Type := Add | Sub | Mul | Div.

Inductive cexp : Type :=
| CLit (ds : str)
| CPos (e : cexp)
| CNeg (e : cexp)
| CBin (o : cop) (a b : cexp).

(** The dialects: which signs there are, and whether there are brackets. *)
Record dialect : Type := mkdialect { signs : list char; brackets : bool }.

Inductive primary (d : dialect) : cexp -> list ctok -> Prop :=
| pr_num : forall ds, primary d (CLit ds) [CNum ds]
| pr_brackets : forall e ts, brackets d = true -> sum d e ts ->
    primary d e (COp 40 :: ts ++ [COp 41])
(** signs *)
with signed (d : dialect) : cexp -> list ctok -> Prop :=
| sg_primary : forall e ts, primary d e ts -> signed d e ts
| sg_plus : forall e ts, In 43 (signs d) -> signed d e ts -> signed d (CPos e) (COp 43 :: ts)
| sg_minus : forall e ts, In 45 (signs d) -> signed d e ts -> signed d (CNeg e) (COp 45 :: ts)
(** * and /, to the left *)
with product (d : dialect) : cexp -> list ctok -> Prop :=
| pd_one : forall e ts, signed d e ts -> product d e ts
| pd_mul : forall a b ts us, product d a ts -> signed d b us ->
    product d (CBin Mul a b) (ts ++ COp 42 :: us)
| pd_div : forall a b ts us, product d a ts -> signed d b us ->
    product d (CBin Div a b) (ts ++ COp 47 :: us)
(** + and -, to the left *)
with sum (d : dialect) : cexp -> list ctok -> Prop :=
| su_one : forall e ts, product d e ts -> sum d e ts
| su_add : forall a b ts us, sum d a ts -> product d b us ->
    sum d (CBin Add a b) (ts ++ COp 43 :: us)
| su_sub : forall a b ts us, sum d a ts -> product d b us ->
    sum d (CBin Sub a b) (ts ++ COp 45 :: us).

(** ** Values *)

(** The numbers an [int] can hold (32 bits). *)
Definition is_int (z : Z) : Prop := - 2 ^ 31 <= z < 2 ^ 31.

(** The quotient rounded towards zero. *)
Definition quotient (a b q : Z) : Prop :=
  exists r, a = b * q + r /\ Z.abs r < Z.abs b /\ (r = 0 \/ (0 < r <-> 0 < a)).

(** [e] has the value [z] and every number on the way to it is an [int]. *)
Inductive means : cexp -> Z -> Prop :=
| mn_lit : forall ds, is_int (decimal ds) -> means (CLit ds) (decimal ds)
| mn_pos : forall e z, means e z -> means (CPos e) z
| mn_neg : forall e z, means e z -> is_int (- z) -> means (CNeg e) (- z)
| mn_add : forall a b x y, means a x -> means b y -> is_int (x + y) -> means (CBin Add a b) (x + y)
| mn_sub : forall a b x y, means a x -> means b y -> is_int (x - y) -> means (CBin Sub a b) (x - y)
| mn_mul : forall a b x y, means a x -> means b y -> is_int (x * y) -> means (CBin Mul a b) (x * y)
| mn_div : forall a b x y q, means a x -> means b y -> quotient x y q -> is_int q ->
    means (CBin Div a b) q.

Definition meaningless (e : cexp) : Prop := forall z, ~ means e z.

(** The dialects of the examples. *)
Definition plain_dialect : dialect := mkdialect [] false.
Definition parens_dialect : dialect := mkdialect [] true.
Definition unary_dialect : dialect := mkdialect [43; 45] true.
Definition minus_dialect : dialect := mkdialect [45] false.
Definition tutorial_dialect : dialect := mkdialect [45] true.

(** [s] is the text of [e], with whitespace anywhere between tokens, at the
    beginning and at the end. *)
Definition calc_text (d : dialect) (e : cexp) (s : str) : Prop :=
  exists w t ts, s = w ++ t /\ Forall space_char w /\ tokens t ts [] /\ sum d e ts.

(** [s] starts with the text of [e] (without whitespace in front); [rem] follows. *)
Definition starts_with_exp (d : dialect) (e : cexp) (s rem : str) : Prop :=
  exists ts, tokens s ts rem /\ sum d e ts.

Definition operator_char (c : char) : Prop := c = 43 \/ c = 45 \/ c = 42 \/ c = 47.

(** The C++98 limits leave room for the calculators. *)
Definition calc_fits (cfg : config) : Prop := fits_one_of cfg 3 /\ fits_sequence cfg 3.

(** ** Printing *)

Definition op_of (o : cop) : char :=
  match o with Add => 43 | Sub => 45 | Mul => 42 | Div => 47 end.

Definition in_parens (b : bool) (ts : list ctok) : list ctok :=
  if b then COp 40 :: ts ++ [COp 41] else ts.

(** The tokens of an expression, with brackets only where they are needed;
    level 0 is [sum], 1 [product], 2 [signed]. *)
Fixpoint show_exp (level : nat) (e : cexp) : list ctok :=
  match e with
  | CLit ds => [CNum ds]
  | CPos a => COp 43 :: show_exp 2 a
  | CNeg a => COp 45 :: show_exp 2 a
  | CBin (Mul as o) a b | CBin (Div as o) a b =>
      in_parens (Nat.ltb 1 level) (show_exp 1 a ++ COp (op_of o) :: show_exp 2 b)
  | CBin o a b =>
      in_parens (Nat.ltb 0 level) (show_exp 0 a ++ COp (op_of o) :: show_exp 1 b)
  end.

Definition ctok_text (k : ctok) : str := match k with CNum ds => ds | COp c => [c] end.

(** One space after every token. *)
Definition print_exp (e : cexp) : str :=
  flat_map (fun k => ctok_text k ++ [32]) (show_exp 0 e).

(** The literals are numbers; the signs are those of the dialect. *)
Fixpoint printable (d : dialect) (e : cexp) : Prop :=
  match e with
  | CLit ds => ds <> [] /\ Forall digit_char ds
  | CPos a => In 43 (signs d) /\ printable d a
  | CNeg a => In 45 (signs d) /\ printable d a
  | CBin _ a b => printable d a /\ printable d b
  end.
