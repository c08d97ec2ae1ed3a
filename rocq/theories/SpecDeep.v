(** Specification vocabulary for parser expressions. *)

From Coq Require Import ZArith List Bool.
From Verif Require Import Base Deep Spec.
Import ListNotations.
Open Scope Z_scope.

(** The immediate sub-expressions. *)
Definition children (e : pexpr) : list pexpr :=
  match e with
  | PNative _ | PRef _ | PReturn _ | PFail _ | POneChar | PEmpty _
  | PKeyword _ _ | POneOfC _ | POneCharExceptC _ => []
  | PAcceptWhen p _ _ | PChangeErrorMessage p _ | PTransform p _
  | PTransformError p _ | PTransformErrorMessage p _ | PAlways p _
  | PLookAhead p | POptional p _ | PExcept p _ _ | PIf p _ _
  | PFailAtFirstCharExpected p | PFoldl p _ _ | PFoldl1 p _ _
  | PFoldlRejectIncomplete p _ _ | PFoldlRejectIncomplete1 p _ _
  | PFoldr p _ _ | PFoldr1 p _ _ | PFoldrRejectIncomplete p _ _
  | PFoldrRejectIncomplete1 p _ _ | PIterate p _ | PEntireInput p _ => [p]
  | PFoldlStartWithParser p sp _ | PFoldlRejectIncompleteStartWithParser p sp _
  | PFoldrStartWithParser p sp _ => [p; sp]
  | POneOf l | PSequence l | PSequenceApply _ l | PNthOf _ l | PFirstOf l
  | PLastOf l => l
  | PMiddleOf p1 p2 p3 => [p1; p2; p3]
  end.

(** [Q] holds of [e] and of all its sub-expressions. *)
Inductive every (Q : pexpr -> Prop) : pexpr -> Prop :=
| every_intro : forall e, Q e -> (forall c, In c (children e) -> every Q c) -> every Q e.

(** What the parsers and error transformers written by the user may do: [N] is
    required of the parsers, [E] of the error transformers. *)
Definition natives (N : pfun -> Prop) (E : (msg -> pos -> outcome) -> Prop)
  (e : pexpr) : Prop :=
  match e with
  | PNative p => N p
  | PTransformError _ f => E f
  | _ => True
  end.

(** Acceptances of [p] return a suffix of the input and the position reached by
    reading the consumed text. *)
Definition sound_accept (p : pfun) : Prop :=
  forall s ps r rem ps', p s ps = Accept r rem ps' ->
  exists w, s = w ++ rem /\ walk ps w ps'.

(** Error positions of [p] are reached by reading a prefix of the input. *)
Definition sound_reject (p : pfun) : Prop :=
  forall s ps m ps', p s ps = Reject m ps' -> exists w, prefix w s /\ walk ps w ps'.

(** An error transformer that does not turn errors into acceptances. *)
Definition keeps_errors (f : msg -> pos -> outcome) : Prop :=
  forall m ps r rem ps', f m ps <> Accept r rem ps'.

(** An error transformer that does not move errors. *)
Definition keeps_positions (f : msg -> pos -> outcome) : Prop :=
  forall m ps m' ps', f m ps = Reject m' ps' -> ps' = ps.

(** An error transformer that only changes the message. *)
Definition changes_message_only (f : msg -> pos -> outcome) : Prop :=
  forall m ps, exists m', f m ps = Reject m' ps.

(** The same outcome at two places: equal results and remaining input, and
    positions at the same offset from the two start positions. *)
Definition same_at (s : str) (ps1 ps2 : pos) (o1 o2 : outcome) : Prop :=
  match o1, o2 with
  | Accept r1 rem1 q1, Accept r2 rem2 q2 =>
      r1 = r2 /\ rem1 = rem2
      /\ exists w, s = w ++ rem1 /\ walk ps1 w q1 /\ walk ps2 w q2
  | Reject _ q1, Reject _ q2 =>
      exists w, prefix w s /\ walk ps1 w q1 /\ walk ps2 w q2
  | Illformed, Illformed => True
  | OutOfFuel, OutOfFuel => True
  | _, _ => False
  end.

(** [p] gives the same outcome wherever it starts. *)
Definition position_independent (p : pfun) : Prop :=
  forall s ps1 ps2, same_at s ps1 ps2 (p s ps1) (p s ps2).

(** Functions on error messages that are defined for every message. *)
Definition total_messages (e : pexpr) : Prop :=
  match e with
  | PTransformErrorMessage _ f => forall m, f m <> None
  | _ => True
  end.

(** The numbers of arguments used in the expression are within the limits of
    the configuration. *)
Definition fits (cfg : config) (e : pexpr) : Prop :=
  match e with
  | POneOf l => fits_one_of cfg (length l)
  | PSequence l => fits_sequence cfg (length l) /\ l <> []
  | PSequenceApply _ l => (1 <= length l < limit_sequence cfg)%nat
  | PNthOf _ l | PFirstOf l | PLastOf l => fits_sequence cfg (length l)
  | POneOfC cs => fits_one_of_c cfg (length cs)
  | POneCharExceptC cs => fits_one_char_except cfg (length cs)
  | PMiddleOf _ _ _ => fits_sequence cfg 3
  | PEntireInput _ _ | PFoldrRejectIncomplete _ _ _
  | PFoldrRejectIncomplete1 _ _ _ => fits_sequence cfg 2
  | _ => True
  end.

(** A property of a whole program. *)
Definition program_every (Q : pexpr -> Prop) (env : program) : Prop :=
  forall k, every Q (env k).
