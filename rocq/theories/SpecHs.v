(** The language of example/meta_hs: texts and trees.  Of the model only the type
    of the trees (the class templates of ast.hpp) is used. *)

From Coq Require Import ZArith List Bool.
From Verif Require Import Base Spec SpecGrammar SpecCalc SpecExamples MetaHs.
Import ListNotations.
Open Scope Z_scope.

(** ** Texts *)

Inductive bop : Set := BAdd | BSub | BMul | BDiv | BLt | BLe | BGt | BGe | BEq | BNe.

Inductive hexp : Type :=
| HNum (ds : str)
| HVar (x : str)
| HCall (f a : hexp)
| HIf (c a b : hexp)
| HOp (o : bop) (a b : hexp).

Definition op_text (o : bop) : str :=
  match o with
  | BAdd => text "+" | BSub => text "-" | BMul => text "*" | BDiv => text "/"
  | BLt => text "<" | BLe => text "<=" | BGt => text ">" | BGe => text ">="
  | BEq => text "==" | BNe => text "/="
  end.
(** how loosely it binds *)
Definition op_level (o : bop) : nat :=
  match o with BMul | BDiv => 2 | BAdd | BSub => 3 | _ => 4 end.

(** [s] starts with [w] and all the whitespace after it, [t] follows. *)
Definition lexeme_text (w s t : str) : Prop :=
  exists u, s = w ++ u ++ t /\ Forall space_char u /\ not_starting_with space_char t.

Definition reserved (w : str) : Prop := w = text "if" \/ w = text "then" \/ w = text "else".
Definition word (w : str) : Prop :=
  exists c u, w = c :: u /\ (letter_char c \/ c = 95) /\ Forall name_char u.

(** [s] starts with the name [x] (the longest possible) and whitespace. *)
Definition name_text (x s t : str) : Prop :=
  exists u, s = x ++ u ++ t /\ word x /\ ~ reserved x /\ Forall space_char u
    /\ not_starting_with name_char (u ++ t) /\ not_starting_with space_char t.
(** [s] starts with the keyword [k] and whitespace.  If not [loose], no character of
    a name may follow. *)
Definition key_text (loose : bool) (k s t : str) : Prop :=
  exists u, s = k ++ u ++ t /\ Forall space_char u /\ not_starting_with space_char t
    /\ (loose = true \/ not_starting_with name_char (u ++ t)).

(** No expression goes on with [t]. *)
Definition ends_expression (t : str) : Prop :=
  not_starting_with (fun c => name_char c \/ In c (text "(+-*/<>=")) t
  \/ (exists u, key_text false (text "then") t u) \/ (exists u, key_text false (text "else") t u).

(** What may be written: [r_loose]: the keyword [if] may be followed by a character
    of a name; [r_names] and [r_ops]: the names and the operators of expressions. *)
Record reading : Type := { r_loose : bool; r_names : str -> Prop; r_ops : bop -> Prop }.

(** [s] starts with [e], [t] follows; level 0: single expressions, 1: applications,
    2: products, 3: sums, 4: comparisons, everything grouped to the left.  The part
    after [else] goes on as far as possible. *)
Inductive etext (r : reading) : nat -> hexp -> str -> str -> Prop :=
| et_num : forall ds w t s, leading_number ds w t s -> etext r 0 (HNum ds) s t
| et_var : forall x s t, name_text x s t -> r_names r x -> etext r 0 (HVar x) s t
| et_paren : forall e s s1 s2 t, lexeme_text (text "(") s s1 -> etext r 4 e s1 s2 ->
    lexeme_text (text ")") s2 t -> etext r 0 e s t
| et_if : forall c a b s s1 s2 s3 s4 s5 t,
    key_text (r_loose r) (text "if") s s1 -> etext r 4 c s1 s2 ->
    key_text false (text "then") s2 s3 -> etext r 4 a s3 s4 ->
    key_text false (text "else") s4 s5 -> etext r 4 b s5 t ->
    ends_expression t -> etext r 0 (HIf c a b) s t
| et_call : forall f a s s1 t, etext r 1 f s s1 -> etext r 0 a s1 t -> etext r 1 (HCall f a) s t
| et_op : forall o k a b s s1 s2 t, op_level o = S k -> r_ops r o -> etext r (S k) a s s1 ->
    lexeme_text (op_text o) s1 s2 -> etext r k b s2 t -> etext r (S k) (HOp o a b) s t
| et_up : forall k e s t, (k < 4)%nat -> etext r k e s t -> etext r (S k) e s t.

Record hdef : Type := { d_name : str; d_params : list str; d_body : hexp }.

Inductive params_text : list str -> str -> str -> Prop :=
| pt_nil : forall s, params_text [] s s
| pt_cons : forall x xs s s1 t, name_text x s s1 -> params_text xs s1 t -> params_text (x :: xs) s t.

(** [s] is the definition [d]: name, parameters, =, expression. *)
Definition dtext (r : reading) (d : hdef) (s : str) : Prop :=
  exists s1 s2 s3, name_text (d_name d) s s1 /\ params_text (d_params d) s1 s2
    /\ lexeme_text (text "=") s2 s3 /\ etext r 4 (d_body d) s3 [].

(** The language as documented. *)
Definition documented : reading :=
  {| r_loose := false; r_names := fun _ => True; r_ops := fun _ => True |}.
(** Without names starting with if (in expressions) and without /=. *)
Definition plain : reading :=
  {| r_loose := false; r_names := fun x => ~ prefix (text "if") x; r_ops := fun o => o <> BNe |}.
(** Without /=, but [if] may be followed by anything. *)
Definition run_on : reading :=
  {| r_loose := true; r_names := fun _ => True; r_ops := fun o => o <> BNe |}.

(** In [s], a word ends after the letters if. *)
Definition if_separate (s : str) : Prop :=
  forall u v, s = u ++ text "if" ++ v -> not_starting_with name_char v.
Definition without_ne (s : str) : Prop := forall u v, s <> u ++ text "/=" ++ v.

(** ** Trees *)

Definition op_name (o : bop) : str := text "." ++ op_text o ++ text ".".

Fixpoint tree (e : hexp) : ast :=
  match e with
  | HNum ds => AValue (KInt (decimal ds))
  | HVar x => ARef x
  | HCall f a => AApp (tree f) (tree a)
  | HIf c a b => AApp (AApp (AApp (AValue (KCurry TIf [])) (tree c)) (tree a)) (tree b)
  | HOp o a b => AApp (AApp (ARef (op_name o)) (tree a)) (tree b)
  end.
Fixpoint lambdas (xs : list str) (a : ast) : ast :=
  match xs with [] => a | x :: xs' => ALam (lambdas xs' a) x end.
Definition def_tree (d : hdef) : ast := ATop (lambdas (d_params d) (tree (d_body d))).

Fixpoint literals_ok (e : hexp) : Prop :=
  match e with
  | HNum ds => is_int (decimal ds)
  | HVar _ => True
  | HCall f a => literals_ok f /\ literals_ok a
  | HIf c a b => literals_ok c /\ literals_ok a /\ literals_ok b
  | HOp _ a b => literals_ok a /\ literals_ok b
  end.
