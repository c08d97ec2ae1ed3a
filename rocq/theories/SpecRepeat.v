(** Vocabulary for rewriting repetitions: stated with the syntax of parser
    expressions (Deep.v) and the folds of lists of Spec.v only. *)

From Coq Require Import ZArith List Bool.
From Verif Require Import Base Util Deep Spec SpecRules SpecLaws.
Import ListNotations.
Open Scope Z_scope.

(** A metafunction class called with the results that were collected. *)
Definition over (g : list value -> option value) : mf1 := fun v =>
  match v with VSeq rs => g rs | _ => None end.

(** The metafunction class [f] of a right fold called with the pair of an element
    and what has been made of the elements after it. *)
Definition on_pair (f : mf2) : mf1 := fun v =>
  match v with VSeq [r; x] => f x r | _ => None end.

(** The element and the list of the elements after it, as one list. *)
Definition put_before : mf1 := fun v =>
  match v with VSeq [r; VSeq rs] => Some (VSeq (r :: rs)) | _ => None end.

(** [f] after [g] has been applied to the element. *)
Definition each_by (g : mf1) (f : mf2) : mf2 := fun a r =>
  match g r with Some x => f a x | None => None end.

(** Applying [h] at the end is the same as applying it at the beginning and
    going on with [f'] instead of [f]. *)
Definition fuses (h : mf1) (f f' : mf2) : Prop := forall a r,
  after h (fun a => f a r) a = after (fun b => f' b r) h a.

(** It does not matter which of two elements comes first. *)
Definition order_irrelevant (f : mf2) : Prop := forall a x y,
  after (fun b => f b y) (fun b => f b x) a = after (fun b => f b x) (fun b => f b y) a.

(** Brackets do not matter. *)
Definition associative (f : mf2) : Prop := forall a b c,
  match f a b with Some x => f x c | None => None end
  = match f b c with Some x => f a x | None => None end.

(** Rewriting repetitions. *)
Inductive fold_law : pexpr -> pexpr -> Prop :=
(** every fold is [repeated] with its results folded afterwards *)
| fl_left p v f : fold_law (PFoldl p (Some v) f)
    (PTransform (PRepeated p) (over (fun rs => lfold f rs v)))
| fl_right p v f : fold_law (PFoldr p v f)
    (PTransform (PRepeated p) (over (fun rs => rfold f rs v)))
| fl_left1 p v f : fold_law (PFoldl1 p (Some v) f)
    (PTransform (PRepeated1 p) (over (fun rs => lfold f rs v)))
| fl_right1 p v f : fold_law (PFoldr1 p v f)
    (PTransform (PRepeated1 p) (over (fun rs => rfold f rs v)))
| fl_right_collects p : fold_law (PFoldr p (VSeq []) front_inserter) (PRepeated p)
(** changing the elements can be done by the function of the fold *)
| fl_left_each p g st f : fold_law (PFoldl (PTransform p g) st f) (PFoldl p st (each_by g f))
| fl_right_each p g v f : fold_law (PFoldr (PTransform p g) v f) (PFoldr p v (each_by g f))
| fl_left1_each p g st f : fold_law (PFoldl1 (PTransform p g) st f) (PFoldl1 p st (each_by g f))
| fl_right1_each p g v f : fold_law (PFoldr1 (PTransform p g) v f) (PFoldr1 p v (each_by g f))
| fl_left_start_each p g sp f :
    fold_law (PFoldlStartWithParser (PTransform p g) sp f) (PFoldlStartWithParser p sp (each_by g f))
| fl_right_start_each p g sp f : total1 g ->
    fold_law (PFoldrStartWithParser (PTransform p g) sp f) (PFoldrStartWithParser p sp (each_by g f))
| fl_left_ri_each p g st f : total1 g ->
    fold_law (PFoldlRejectIncomplete (PTransform p g) st f) (PFoldlRejectIncomplete p st (each_by g f))
| fl_right_ri_each p g v f : total1 g ->
    fold_law (PFoldrRejectIncomplete (PTransform p g) v f) (PFoldrRejectIncomplete p v (each_by g f))
(** changing the result can be done by the function of the fold *)
| fl_left_fuse p v v' f f' h : fuses h f f' -> h v = Some v' ->
    fold_law (PTransform (PFoldl p (Some v) f) h) (PFoldl p (Some v') f')
| fl_left1_fuse p v v' f f' h : fuses h f f' -> h v = Some v' ->
    fold_law (PTransform (PFoldl1 p (Some v) f) h) (PFoldl1 p (Some v') f')
| fl_right_fuse p v v' f f' h : fuses h f f' -> h v = Some v' ->
    fold_law (PTransform (PFoldr p v f) h) (PFoldr p v' f')
| fl_right1_fuse p v v' f f' h : fuses h f f' -> h v = Some v' ->
    fold_law (PTransform (PFoldr1 p v f) h) (PFoldr1 p v' f')
(** the direction does not matter if the order of the elements does not *)
| fl_turn p v f : order_irrelevant f -> fold_law (PFoldl p (Some v) f) (PFoldr p v f)
(** nor if the brackets do not *)
| fl_turn_swapped p v f : associative f -> (forall x, f v x = f x v) ->
    fold_law (PFoldl p (Some v) f) (PFoldr p v (swap f))
(** a right fold is nothing or an element and a right fold *)
| fl_unroll p v f :
    fold_law (PFoldr p v f) (POptional (PTransform (PSequence [p; PFoldr p v f]) (on_pair f)) v)
(** at least one is one and any number of further ones *)
| fl_one_more p : fold_law (PRepeated1 p) (PTransform (PSequence [p; PRepeated p]) put_before).

(** All elements as one group; none if there are no elements. *)
Definition one_group : mf1 := fun v =>
  match v with
  | VSeq [] => Some (VSeq [])
  | VSeq rs => Some (VSeq [VSeq rs])
  | _ => None
  end.

(** Elements with separators between them, collected: the separators are read
    together with the element after them, or with the one before them. *)
Definition separated_after (p sep : pexpr) : pexpr :=
  PTransform (PSequence [p; PRepeated (PLastOf [sep; p])]) put_before.
Definition separated_before (p sep : pexpr) : pexpr :=
  PTransform (PSequence [PRepeated (PFirstOf [p; sep]); p])
    (fun v => match v with VSeq [VSeq rs; r] => Some (VSeq (rs ++ [r])) | _ => None end).

Section In_a_program.
Variable sd : std.
Variable env : program.

(** [p] accepts [rs], with [sep] between them. *)
Inductive alternately (p sep : pexpr) : str -> pos -> list value -> str -> pos -> Prop :=
| alt_one s ps r s' ps' : gives sd env p s ps (Accept r s' ps') ->
    alternately p sep s ps [r] s' ps'
| alt_more s ps r s1 ps1 x s2 ps2 rs s' ps' :
    gives sd env p s ps (Accept r s1 ps1) -> gives sd env sep s1 ps1 (Accept x s2 ps2) ->
    alternately p sep s2 ps2 rs s' ps' -> alternately p sep s ps (r :: rs) s' ps'.

(** No separator with an element after it follows. *)
Definition no_more (p sep : pexpr) (s : str) (ps : pos) : Prop :=
  (exists m pe, gives sd env sep s ps (Reject m pe))
  \/ exists x s1 ps1 m pe, gives sd env sep s ps (Accept x s1 ps1)
       /\ gives sd env p s1 ps1 (Reject m pe).
End In_a_program.
