(** A type system for parser expressions.  A type is a set of values; the rules
    ask that the operations of the user are defined for the values they get. *)

From Coq Require Import ZArith List Bool.
From Verif Require Import Base Deep Spec SpecDeep.
Import ListNotations.
Open Scope Z_scope.

Definition ty := value -> Prop.

(** [f] maps [A] to [B]. *)
Definition maps1 (A B : ty) (f : mf1) : Prop :=
  forall v, A v -> exists w, f v = Some w /\ B w.
Definition maps2 (A B C : ty) (f : mf2) : Prop :=
  forall v w, A v -> B w -> exists u, f v w = Some u /\ C u.

(** The sequences with elements of the types [Ts]. *)
Definition seq_of (Ts : list ty) (v : value) : Prop :=
  exists vs, v = VSeq vs /\ Forall2 (fun T x => T x) Ts vs.

(** [typed cfg G e T]: [e] has type [T] when the named parsers have the types
    [G]. *)
Inductive typed (cfg : config) (G : nat -> ty) : pexpr -> ty -> Prop :=
| T_sub : forall e (A B : ty), typed cfg G e A -> (forall v, A v -> B v) -> typed cfg G e B
| T_native : forall p (A : ty),
    (forall s ps, p s ps <> Illformed) ->
    (forall s ps r rem q, p s ps = Accept r rem q -> A r) -> typed cfg G (PNative p) A
| T_ref : forall k, typed cfg G (PRef k) (G k)
| T_return : forall v (A : ty), A v -> typed cfg G (PReturn v) A
| T_fail : forall m A, typed cfg G (PFail m) A
| T_one_char : typed cfg G POneChar (fun v => exists c, v = VChar c)
| T_empty : forall v (A : ty), A v -> typed cfg G (PEmpty v) A
| T_accept_when : forall p A pr m, typed cfg G p A -> (forall v, A v -> pr v <> None) ->
    typed cfg G (PAcceptWhen p pr m) (fun v => A v /\ pr v = Some true)
| T_change_error_message : forall p A m, typed cfg G p A ->
    typed cfg G (PChangeErrorMessage p m) A
| T_transform : forall p A B f, typed cfg G p A -> maps1 A B f -> typed cfg G (PTransform p f) B
| T_transform_error : forall p (A : ty) f, typed cfg G p A ->
    (forall m ps, f m ps <> Illformed) ->
    (forall m ps r rem q, f m ps = Accept r rem q -> A r) ->
    typed cfg G (PTransformError p f) A
| T_transform_error_message : forall p A f, typed cfg G p A -> (forall m, f m <> None) ->
    typed cfg G (PTransformErrorMessage p f) A
| T_always : forall p A (B : ty) v, typed cfg G p A -> B v -> typed cfg G (PAlways p v) B
| T_look_ahead : forall p A, typed cfg G p A -> typed cfg G (PLookAhead p) A
| T_optional : forall p (A : ty) d, typed cfg G p A -> A d -> typed cfg G (POptional p d) A
| T_except : forall p A (B : ty) v m, typed cfg G p A -> B v -> typed cfg G (PExcept p v m) B
| T_if : forall p A (B : ty) t f, typed cfg G p A -> B t -> B f -> typed cfg G (PIf p t f) B
| T_fail_at_first_char_expected : forall p A, typed cfg G p A ->
    typed cfg G (PFailAtFirstCharExpected p) (fun v => v = VVoid_)
| T_keyword : forall kw r (A : ty), A r -> typed cfg G (PKeyword kw r) A
| T_foldl : forall p A (S : ty) st f, typed cfg G p A -> S st -> maps2 S A S f ->
    typed cfg G (PFoldl p (Some st) f) S
| T_foldl1 : forall p A (S : ty) st f, typed cfg G p A -> S st -> maps2 S A S f ->
    typed cfg G (PFoldl1 p (Some st) f) S
| T_foldl_ri : forall p A (S : ty) st f, typed cfg G p A -> S st -> maps2 S A S f ->
    typed cfg G (PFoldlRejectIncomplete p (Some st) f) S
| T_foldl_ri1 : forall p A (S : ty) st f, typed cfg G p A -> S st -> maps2 S A S f ->
    typed cfg G (PFoldlRejectIncomplete1 p (Some st) f) S
| T_foldl_swp : forall p sp A S f, typed cfg G p A -> typed cfg G sp S -> ~ S VVoid -> maps2 S A S f ->
    typed cfg G (PFoldlStartWithParser p sp f) S
| T_foldl_ri_swp : forall p sp A S f, typed cfg G p A -> typed cfg G sp S -> ~ S VVoid -> maps2 S A S f ->
    typed cfg G (PFoldlRejectIncompleteStartWithParser p sp f) S
| T_foldr_swp : forall p sp A S f, typed cfg G p A -> typed cfg G sp S -> maps2 S A S f ->
    typed cfg G (PFoldrStartWithParser p sp f) S
| T_foldr : forall p A (S : ty) st f, typed cfg G p A -> S st -> maps2 S A S f ->
    typed cfg G (PFoldr p st f) S
| T_foldr1 : forall p A (S : ty) st f, typed cfg G p A -> S st -> maps2 S A S f ->
    typed cfg G (PFoldr1 p st f) S
| T_foldr_ri : forall p A (S : ty) st f, fits_sequence cfg 2 ->
    typed cfg G p A -> S st -> maps2 S A S f ->
    typed cfg G (PFoldrRejectIncomplete p st f) S
| T_foldr_ri1 : forall p A (S : ty) st f, fits_sequence cfg 2 ->
    typed cfg G p A -> S st -> maps2 S A S f ->
    typed cfg G (PFoldrRejectIncomplete1 p st f) S
| T_iterate : forall p A k, typed cfg G p A ->
    typed cfg G (PIterate p k) (fun v => exists l, v = VSeq l /\ Forall A l /\ Z.of_nat (length l) = k)
| T_one_of : forall l A, fits_one_of cfg (length l) ->
    typed_all cfg G l (repeat A (length l)) -> typed cfg G (POneOf l) A
| T_sequence : forall l Ts, fits_sequence cfg (length l) -> l <> [] ->
    typed_all cfg G l Ts -> typed cfg G (PSequence l) (seq_of Ts)
| T_sequence_apply : forall t l Ts, (1 <= length l < limit_sequence cfg)%nat ->
    typed_all cfg G l Ts ->
    typed cfg G (PSequenceApply t l)
      (fun v => exists vs, v = t vs /\ Forall2 (fun T x => T x) Ts vs)
| T_nth_of : forall k l Ts A, fits_sequence cfg (length l) -> typed_all cfg G l Ts ->
    nth_error Ts k = Some A -> typed cfg G (PNthOf (Z.of_nat k) l) A
| T_nth_of_out : forall k l A, fits_sequence cfg (length l) ->
    ~ (0 <= k < Z.of_nat (length l)) -> typed cfg G (PNthOf k l) A
| T_first_of : forall l T Ts, fits_sequence cfg (length l) -> typed_all cfg G l (T :: Ts) ->
    typed cfg G (PFirstOf l) T
| T_last_of : forall l T Ts, fits_sequence cfg (length l) -> typed_all cfg G l (Ts ++ [T]) ->
    typed cfg G (PLastOf l) T
| T_one_of_c : forall cs, fits_one_of_c cfg (length cs) ->
    typed cfg G (POneOfC cs) (fun v => exists c, v = VChar c /\ In c cs)
| T_one_char_except_c : forall cs, fits_one_char_except cfg (length cs) ->
    typed cfg G (POneCharExceptC cs) (fun v => exists c, v = VChar c /\ ~ In c cs)
| T_middle_of : forall p1 p2 p3 A B C, fits_sequence cfg 3 ->
    typed cfg G p1 A -> typed cfg G p2 B -> typed cfg G p3 C ->
    typed cfg G (PMiddleOf p1 p2 p3) B
| T_entire_input : forall p m A, fits_sequence cfg 2 -> typed cfg G p A ->
    typed cfg G (PEntireInput p m) A
with typed_all (cfg : config) (G : nat -> ty) : list pexpr -> list ty -> Prop :=
| T_nil : typed_all cfg G [] []
| T_cons : forall e T l Ts, typed cfg G e T -> typed_all cfg G l Ts ->
    typed_all cfg G (e :: l) (T :: Ts).
