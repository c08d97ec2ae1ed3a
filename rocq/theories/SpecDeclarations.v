(** What the declarations of a grammar say, independently of how and in which
    order they are written (C85). *)

From Coq Require Import ZArith List Bool.
From Verif Require Import Base Spec Deep Grammar SpecGrammar.
Import ListNotations.
Open Scope Z_scope.

(** A declaration gives a name a definition and possibly an action. *)
Record entry : Type := mkentry {
  e_name : str;
  e_def : gdef;
  e_action : option mf1
}.

(** What one declaration says.  A rule is read as in doc/grammar.qbk; an import
    is for the leading name of its string. *)
Inductive says : decl -> entry -> Prop :=
| says_rule : forall s x e a, rule_text x e s -> says (Rule s a) (mkentry x (Parsed e) a)
| says_import : forall s x rest p, s = x ++ rest -> writable x -> not_starting_with name_char rest ->
    says (Import s p) (mkentry x (Native p) None).

Definition written : list decl -> list entry -> Prop := Forall2 says.

(** The last declaration of a name gives its definition. *)
Definition stands_for (l : list entry) (x : str) (d : gdef) : Prop :=
  exists l1 a l2, l = l1 ++ mkentry x d a :: l2
    /\ Forall (fun b => e_name b <> x) l2.

(** The last declaration of a name that comes with an action gives its
    action. *)
Definition acted_by (l : list entry) (x : str) (f : mf1) : Prop :=
  exists l1 d l2, l = l1 ++ mkentry x d (Some f) :: l2
    /\ Forall (fun b => e_name b = x -> e_action b = None) l2.

(** Names used for the name [x]. *)
Inductive used (l : list entry) (x : str) : str -> Prop :=
| us_here : used l x x
| us_step : forall y e z, used l x y -> stands_for l y (Parsed e) -> mentions e z -> used l x z.

(** Two lists of declarations give a name the same definition and action. *)
Definition agree_on (l l' : list entry) (x : str) : Prop :=
  (forall d, stands_for l x d <-> stands_for l' x d)
  /\ (forall f, acted_by l x f <-> acted_by l' x f).

(** ** Other names *)

Fixpoint rename (r : str -> str) (e : gexpr) : gexpr :=
  match e with
  | GChar c => GChar c
  | GName x => GName (r x)
  | GStar a => GStar (rename r a)
  | GPlus a => GPlus (rename r a)
  | GSeq a b => GSeq (rename r a) (rename r b)
  | GSel a b => GSel (rename r a) (rename r b)
  end.

Definition rename_entry (r : str -> str) (b : entry) : entry :=
  mkentry (r (e_name b))
    (match e_def b with Parsed e => Parsed (rename r e) | Native p => Native p end)
    (e_action b).

(** [x] occurs in the declarations. *)
Definition occurs (l : list entry) (x : str) : Prop :=
  Exists (fun b => x = e_name b
    \/ match e_def b with Parsed e => mentions e x | Native _ => False end) l.

(** ** Definitions put in place of names *)

(** The second expression is the first one with [e] at some places where the
    first one has the name [y]. *)
Inductive inlined (y : str) (e : gexpr) : gexpr -> gexpr -> Prop :=
| in_here : inlined y e (GName y) e
| in_char : forall c, inlined y e (GChar c) (GChar c)
| in_name : forall x, inlined y e (GName x) (GName x)
| in_star : forall a a', inlined y e a a' -> inlined y e (GStar a) (GStar a')
| in_plus : forall a a', inlined y e a a' -> inlined y e (GPlus a) (GPlus a')
| in_seq : forall a a' b b', inlined y e a a' -> inlined y e b b' ->
    inlined y e (GSeq a b) (GSeq a' b')
| in_sel : forall a a' b b', inlined y e a a' -> inlined y e b b' ->
    inlined y e (GSel a b) (GSel a' b').

Inductive inlined_entry (y : str) (e : gexpr) : entry -> entry -> Prop :=
| ie_rule : forall x a d d', inlined y e d d' ->
    inlined_entry y e (mkentry x (Parsed d) a) (mkentry x (Parsed d') a)
| ie_import : forall x a p, inlined_entry y e (mkentry x (Native p) a) (mkentry x (Native p) a).
