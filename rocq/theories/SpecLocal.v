(** Which part of the text a parser does not look at.  Like SpecRules.v this
    refers only to the syntax of parser expressions; results are those of the
    rules, applications those of SpecCost.v. *)

From Coq Require Import ZArith List Bool.
From Verif Require Import Base Deep Spec SpecDeep SpecRules SpecCost.
Import ListNotations.
Open Scope Z_scope.

(** The same outcome, the end [t] of the text being [t'] now. *)
Definition with_rest (t t' : str) (o o' : outcome) : Prop :=
  match o with
  | Accept r s ps => exists w, s = w ++ t /\ o' = Accept r (w ++ t') ps
  | _ => o' = o
  end.

Section Unseen.
Variable sd : std.
Variable env : program.
Variable t : str.

(** The parser [e] itself, apart from the parsers it applies, does not look at
    the end [t] of the text [s]: neither at its characters nor whether there are
    any. *)
Definition unseen (e : pexpr) (s : str) (ps : pos) : Prop :=
  match e with
  | POneChar | PEmpty _ | POneOfC _ | POneCharExceptC _ => exists v, v <> [] /\ s = v ++ t
  | PKeyword kw _ => exists v, s = v ++ t /\ forall c k, kw <> v ++ c :: k
  | PEntireInput p _ => forall r s' ps', gives sd env p s ps (Accept r s' ps') ->
      exists v, v <> [] /\ s' = v ++ t
  | PNative p => forall v, s = v ++ t -> forall t', with_rest t t' (p s ps) (p (v ++ t') ps)
  | PTransformError p f => forall m pe, gives sd env p s ps (Reject m pe) -> ~ is_accept (f m pe)
  | _ => True
  end.

(** ... and neither do the parsers it applies. *)
Definition never_seen (e : pexpr) (s : str) (ps : pos) : Prop :=
  forall e1 s1 ps1, reaches sd env (e, s, ps) (e1, s1, ps1) -> unseen e1 s1 ps1.
End Unseen.

(** At most [n] characters are enough for [e] itself where it is applied; parsers
    of the user, error transformers that accept and [entire_input] are not among
    them. *)
Definition needs_at_most (n : nat) (e : pexpr) : Prop :=
  match e with
  | POneChar | PEmpty _ | POneOfC _ | POneCharExceptC _ => (1 <= n)%nat
  | PKeyword kw _ => (length kw <= n)%nat
  | PEntireInput _ _ | PNative _ => False
  | PTransformError _ f => keeps_errors f
  | _ => True
  end.
