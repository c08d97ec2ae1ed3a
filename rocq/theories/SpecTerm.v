(** A check on parser expressions that is meant to guarantee that parsing ends:
    no named parser calls itself without reading a character first, and the
    body of every loop reads something. *)

From Coq Require Import ZArith List Bool.
From Verif Require Import Base Deep SpecDeep.
Import ListNotations.
Open Scope Z_scope.

(** May the expression accept without reading a character?  [nul k] answers
    the question for the named parser [k]. *)
Fixpoint nullable (nul : nat -> bool) (e : pexpr) : bool :=
  match e with
  | PNative _ => true
  | PRef k => nul k
  | PReturn _ | PEmpty _ => true
  | PFail _ | POneChar | POneOfC _ | POneCharExceptC _ => false
  | PAcceptWhen p _ _ | PChangeErrorMessage p _ | PTransform p _
  | PTransformError p _ | PTransformErrorMessage p _ | PAlways p _
  | PEntireInput p _ => nullable nul p
  | PLookAhead _ | POptional _ _ | PExcept _ _ _ | PIf _ _ _
  | PFailAtFirstCharExpected _ => true
  | PKeyword kw _ => match kw with [] => true | _ => false end
  | PFoldl _ _ _ | PFoldlRejectIncomplete _ _ _ | PFoldr _ _ _
  | PFoldrRejectIncomplete _ _ _ => true
  | PFoldl1 p _ _ | PFoldlRejectIncomplete1 p _ _ | PFoldr1 p _ _
  | PFoldrRejectIncomplete1 p _ _ => nullable nul p
  | PFoldlStartWithParser _ sp _ | PFoldlRejectIncompleteStartWithParser _ sp _
  | PFoldrStartWithParser _ sp _ => nullable nul sp
  | PIterate p k => (k =? 0) || nullable nul p
  | POneOf l => existsb (nullable nul) l
  | PSequence l | PSequenceApply _ l | PNthOf _ l | PFirstOf l | PLastOf l =>
      forallb (nullable nul) l
  | PMiddleOf p1 p2 p3 => nullable nul p1 && nullable nul p2 && nullable nul p3
  end.

(** Every named parser the expression may start before a character is read has
    a rank below [r]. *)
Fixpoint left_ok (nul : nat -> bool) (rank : nat -> nat) (r : nat) (e : pexpr) : bool :=
  let ok := left_ok nul rank r in
  let seq_ok :=
    fix seq_ok (l : list pexpr) : bool :=
      match l with
      | [] => true
      | c :: l' => left_ok nul rank r c && (if nullable nul c then seq_ok l' else true)
      end in
  match e with
  | PRef k => Nat.ltb (rank k) r
  | PNative _ | PReturn _ | PEmpty _ | PFail _ | POneChar | POneOfC _
  | POneCharExceptC _ | PKeyword _ _ => true
  | PAcceptWhen p _ _ | PChangeErrorMessage p _ | PTransform p _
  | PTransformError p _ | PTransformErrorMessage p _ | PAlways p _
  | PEntireInput p _ | PLookAhead p | POptional p _ | PExcept p _ _ | PIf p _ _
  | PFailAtFirstCharExpected p | PFoldl p _ _ | PFoldlRejectIncomplete p _ _
  | PFoldr p _ _ | PFoldrRejectIncomplete p _ _ | PFoldl1 p _ _
  | PFoldlRejectIncomplete1 p _ _ | PFoldr1 p _ _
  | PFoldrRejectIncomplete1 p _ _ | PIterate p _ => ok p
  | PFoldlStartWithParser p sp _ | PFoldlRejectIncompleteStartWithParser p sp _ =>
      ok sp && (if nullable nul sp then ok p else true)
  | PFoldrStartWithParser p sp _ => ok p && ok sp
  | POneOf l => forallb ok l
  | PSequence l | PSequenceApply _ l | PNthOf _ l | PFirstOf l | PLastOf l => seq_ok l
  | PMiddleOf p1 p2 p3 =>
      ok p1 && (if nullable nul p1
                then ok p2 && (if nullable nul p2 then ok p3 else true)
                else true)
  end.

(** Local conditions: loop bodies read something, the counts of [iterate] are
    at most [K], the ranks of the named parsers are below [R], and the parts
    written by the user return. *)
Definition returns (p : pfun) : Prop := forall s ps, p s ps <> OutOfFuel.
Definition shrinks (p : pfun) : Prop := forall s ps r rem ps',
  p s ps = Accept r rem ps' -> (length rem <= length s)%nat.
Definition error_returns (f : msg -> pos -> outcome) : Prop := forall m ps, f m ps <> OutOfFuel.

Definition loops_read (nul : nat -> bool) (rank : nat -> nat) (R K : nat) (e : pexpr) : Prop :=
  match e with
  | PNative p => returns p /\ shrinks p
  | PTransformError _ f => error_returns f /\ keeps_errors f
  | PRef k => (rank k < R)%nat
  | PFoldl p _ _ | PFoldl1 p _ _ | PFoldlRejectIncomplete p _ _
  | PFoldlRejectIncomplete1 p _ _ | PFoldlStartWithParser p _ _
  | PFoldlRejectIncompleteStartWithParser p _ _ | PFoldrStartWithParser p _ _
  | PFoldr p _ _ | PFoldr1 p _ _ | PFoldrRejectIncomplete p _ _
  | PFoldrRejectIncomplete1 p _ _ => nullable nul p = false
  | PIterate p k => nullable nul p = false \/ 0 <= k <= Z.of_nat K
  | _ => True
  end.

(** The whole program is well founded: the answers [nul] are right, and a named
    parser starts only named parsers of smaller rank before reading. *)
Record well_founded_program (nul : nat -> bool) (rank : nat -> nat) (R K : nat)
  (env : program) : Prop := {
  wfp_local : program_every (loops_read nul rank R K) env;
  wfp_nul : forall k, nul k = false -> nullable nul (env k) = false;
  wfp_left : forall k, left_ok nul rank (rank k) (env k) = true
}.

(** ** Left recursion *)

(** [c] is a sub-expression of [e] that is always applied to the text and the
    position given to [e].  All alternatives of [one_of] are, even when an
    earlier one accepts. *)
Definition leads (e c : pexpr) : Prop :=
  match e with
  | PNative _ | PRef _ | PReturn _ | PEmpty _ | PFail _ | POneChar | POneOfC _
  | POneCharExceptC _ | PKeyword _ _ => False
  | PAcceptWhen p _ _ | PChangeErrorMessage p _ | PTransform p _
  | PTransformError p _ | PTransformErrorMessage p _ | PAlways p _
  | PEntireInput p _ | PLookAhead p | POptional p _ | PExcept p _ _ | PIf p _ _
  | PFailAtFirstCharExpected p | PFoldl p _ _ | PFoldlRejectIncomplete p _ _
  | PFoldr p _ _ | PFoldrRejectIncomplete p _ _ | PFoldl1 p _ _
  | PFoldlRejectIncomplete1 p _ _ | PFoldr1 p _ _
  | PFoldrRejectIncomplete1 p _ _ | PFoldrStartWithParser p _ _ => c = p
  | PIterate p k => k <> 0 /\ c = p
  | PFoldlStartWithParser _ sp _ | PFoldlRejectIncompleteStartWithParser _ sp _ => c = sp
  | POneOf l => In c l
  | PSequence l | PSequenceApply _ l | PFirstOf l | PLastOf l => exists l', l = c :: l'
  | PNthOf k l => 0 <= k < Z.of_nat (length l) /\ exists l', l = c :: l'
  | PMiddleOf p1 _ _ => c = p1
  end.

(** Evaluating [e] starts the named parser [k] before anything is read. *)
Inductive begins (env : program) : pexpr -> nat -> Prop :=
| begins_ref : forall k, begins env (PRef k) k
| begins_through : forall j k, begins env (env j) k -> begins env (PRef j) k
| begins_lead : forall e c k, leads e c -> begins env c k -> begins env e k.
