(** The parsers of the tutorial (doc/getting_started.qbk) before the last ones:
    what they read and what they compute. *)

From Coq Require Import ZArith List Bool.
From Verif Require Import Base Spec SpecCalc.
Import ListNotations.
Open Scope Z_scope.

(** ** Values; [None]: not an [int] *)

Definition an_int (z : Z) : option Z := if (- 2 ^ 31 <=? z) && (z <? 2 ^ 31) then Some z else None.
Definition both (f : Z -> Z -> option Z) (x y : option Z) : option Z :=
  match x, y with Some a, Some b => f a b | _, _ => None end.

Definition calculate (c : char) (a b : Z) : option Z :=
  if c =? 43 then an_int (a + b)
  else if c =? 45 then an_int (a - b)
  else if c =? 42 then an_int (a * b)
  else if b =? 0 then None else an_int (Z.quot a b).
Definition opposite (x : option Z) : option Z := match x with Some a => an_int (- a) | None => None end.

(** ** Readings: [R x s t]: [s] starts with something of value [x], [t] follows *)

Definition reading (A : Type) : Type := option A -> str -> str -> Prop.

Definition a_number : reading Z := fun x s t => exists ds, tokens s [CNum ds] t /\ x = an_int (decimal ds).

Definition op_at (ops : list char) (c : char) (s t : str) : Prop := In c ops /\ tokens s [COp c] t.

(** operators and operands, as many as there are *)
Inductive items (ops : list char) (R : reading Z) : list (char * option Z) -> str -> str -> Prop :=
| items_end : forall s, (forall c s1 x t, op_at ops c s s1 -> ~ R x s1 t) -> items ops R [] s s
| items_more : forall c x l s s1 s2 t, op_at ops c s s1 -> R x s1 s2 -> items ops R l s2 t ->
    items ops R ((c, x) :: l) s t.

(** computed from left to right *)
Definition from_left (x : option Z) (l : list (char * option Z)) : option Z :=
  fold_left (fun a i => both (calculate (fst i)) a (snd i)) l x.
Definition left_chain (ops : list char) (R : reading Z) : reading Z :=
  fun x s t => exists x0 s1 l, R x0 s s1 /\ items ops R l s1 t /\ x = from_left x0 l.

(** from right to left; no operand may be missing.  A number that is no [int]
    makes the whole ill-formed. *)
Inductive right_chain (ops : list char) : reading Z :=
| rc_last : forall x s t, a_number x s t -> (forall c u, ~ op_at ops c t u) -> right_chain ops x s t
| rc_more : forall a c b s s1 s2 t, a_number a s s1 -> op_at ops c s1 s2 -> right_chain ops b s2 t ->
    right_chain ops (both (calculate c) a b) s t
| rc_large : forall s t, a_number None s t -> right_chain ops None s t.

(** minus signs *)
Inductive negated (R : reading Z) : reading Z :=
| ng_plain : forall x s t, (forall u, ~ op_at [45] 45 s u) -> R x s t -> negated R x s t
| ng_minus : forall x s s1 t, op_at [45] 45 s s1 -> negated R x s1 t -> negated R (opposite x) s t.

(** brackets; an expression without a value needs no closing one *)
Inductive bracketed (R : reading Z) : reading Z :=
| br_closed : forall z s s1 s2 t, op_at [40] 40 s s1 -> R (Some z) s1 s2 -> op_at [41] 41 s2 t ->
    bracketed R (Some z) s t
| br_none : forall s s1 t, op_at [40] 40 s s1 -> R None s1 t -> bracketed R None s t.

Definition first_or_second (R1 R2 : reading Z) : reading Z := fun x s t => R1 x s t \/ R2 x s t.

(** a number and then operators and numbers; all that is an [int], or [None] *)
Fixpoint all_ints (l : list (char * option Z)) : option (list (char * Z)) :=
  match l with
  | [] => Some []
  | (c, x) :: l' => match x, all_ints l' with Some a, Some r => Some ((c, a) :: r) | _, _ => None end
  end.
Fixpoint total (l : list (char * Z)) : Z := match l with [] => 0 | (_, z) :: l' => z + total l' end.

(** The two numbers of [a + b]. *)
Inductive two_numbers : reading (Z * Z) :=
| tn_both : forall a b s s1 s2 t, a_number (Some a) s s1 -> op_at [43] 43 s1 s2 -> a_number (Some b) s2 t ->
    two_numbers (Some (a, b)) s t
| tn_first : forall s t, a_number None s t -> two_numbers None s t
| tn_second : forall a s s1 s2 t, a_number (Some a) s s1 -> op_at [43] 43 s1 s2 -> a_number None s2 t ->
    two_numbers None s t.

(** A number, and the operators and numbers after it. *)
Definition numbers (ops : list char) : reading (Z * list (char * Z)) := fun w s t =>
  exists x0 s1 l, a_number x0 s s1 /\ items ops a_number l s1 t
    /\ w = match x0, all_ints l with Some a, Some r => Some (a, r) | _, _ => None end.

(** [R] with something done to the value. *)
Definition computing {A B : Type} (R : reading A) (f : A -> option B) : reading B := fun y s t =>
  exists x, R x s t /\ y = match x with Some a => f a | None => None end.

(** [p] reads [R] and nothing else; it is ill-formed where there is no value. *)
Definition reads_exactly {A : Type} (R : reading A) (V : A -> value) (p : pfun) (s : str) (ps : pos) : Prop :=
  (forall v t, (exists ps', p s ps = Accept v t ps') <-> exists a, v = V a /\ R (Some a) s t)
  /\ (p s ps = Illformed <-> exists t, R None s t)
  /\ ((exists m pe, p s ps = Reject m pe) <-> forall x t, ~ R x s t)
  /\ p s ps <> OutOfFuel.

(** A reading has one value and, if that is an [int], one end. *)
Definition unambiguous {A : Type} (R : reading A) : Prop := forall x y s t u, R x s t -> R y s u ->
  x = y /\ (x <> None -> t = u).

(** ** The readings of the parsers *)

(** a number and the sum of the rest *)
Definition rest_total (x : Z * list (char * Z)) : option (Z * Z) := option_map (pair (fst x)) (an_int (total (snd x))).
(** the sum of everything *)
Definition whole_total (x : Z * list (char * Z)) : option Z := an_int (fst x + total (snd x)).
(** what an operator and its number become *)
Definition item_value (i : char * Z) : value := VSeq [VChar (fst i); VInt (snd i)].
(** additions and subtractions *)
Definition read13 : reading Z := left_chain [43; 45] a_number.
(** three operations, no precedence *)
Definition read14 : reading Z := left_chain [43; 45; 42] a_number.
(** products first *)
Definition read15 : reading Z := left_chain [43; 45] (left_chain [42] a_number).
(** products and quotients first *)
Definition read16 : reading Z := left_chain [43; 45] (left_chain [42; 47] a_number).
(** products and quotients to the right *)
Definition read17 : reading Z := left_chain [43; 45] (right_chain [42; 47]).
(** minus signs *)
Definition read18 : reading Z := left_chain [43; 45] (left_chain [42; 47] (negated a_number)).
(** brackets around what [read18] reads *)
Definition read19 : reading Z :=
  left_chain [43; 45] (left_chain [42; 47] (negated (first_or_second a_number (bracketed read18)))).
