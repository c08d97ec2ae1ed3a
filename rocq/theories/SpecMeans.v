(** What a parser makes of the words of its grammar: the value of a derivation. *)

From Coq Require Import ZArith List Bool.
From Verif Require Import Base Util Deep Spec SpecDeep SpecRules SpecPeg SpecCfg SpecBlame.
Import ListNotations.
Open Scope Z_scope.

Section Means.
Variable env : program.

(** [means e w v]: the word [w] can be read as [e], with the value [v].  The
    alternatives have no order, repetitions may stop anywhere. *)
Inductive means : pexpr -> str -> value -> Prop :=
| m_ref k w v : means (env k) w v -> means (PRef k) w v
| m_return v : means (PReturn v) [] v
| m_one_char c : means POneChar [c] (VChar c)
| m_one_of_c cs c : In c cs -> means (POneOfC cs) [c] (VChar c)
| m_one_char_except cs c : ~ In c cs -> means (POneCharExceptC cs) [c] (VChar c)
| m_keyword kw r : means (PKeyword kw r) kw r
| m_accept_when p pr m w v : means p w v -> pr v = Some true ->
    means (PAcceptWhen p pr m) w v
| m_change_error_message p m w v : means p w v -> means (PChangeErrorMessage p m) w v
| m_transform_error p f w v : means p w v -> means (PTransformError p f) w v
| m_transform_error_message p f w v : means p w v -> means (PTransformErrorMessage p f) w v
| m_transform p f w r v : means p w r -> f r = Some v -> means (PTransform p f) w v
| m_always p v w r : means p w r -> means (PAlways p v) w v
| m_optional p d w v : means p w v -> means (POptional p d) w v
| m_optional_not p d : means (POptional p d) [] d
| m_one_of l p w v : In p l -> means p w v -> means (POneOf l) w v
| m_foldl p st f w rs v0 v : words p w rs -> st = Some v0 -> lfold f rs v0 = Some v ->
    means (PFoldl p st f) w v
| m_foldl1 p st f w rs v0 v : words p w rs -> rs <> [] -> st = Some v0 ->
    lfold f rs v0 = Some v -> means (PFoldl1 p st f) w v
| m_foldl_ri p st f w rs v0 v : words p w rs -> st = Some v0 -> lfold f rs v0 = Some v ->
    means (PFoldlRejectIncomplete p st f) w v
| m_foldl_ri1 p st f w rs v0 v : words p w rs -> rs <> [] -> st = Some v0 ->
    lfold f rs v0 = Some v -> means (PFoldlRejectIncomplete1 p st f) w v
| m_foldl_swp p sp f u w v0 rs v : means sp u v0 -> words p w rs -> lfold f rs v0 = Some v ->
    means (PFoldlStartWithParser p sp f) (u ++ w) v
| m_foldl_ri_swp p sp f u w v0 rs v : means sp u v0 -> words p w rs ->
    lfold f rs v0 = Some v -> means (PFoldlRejectIncompleteStartWithParser p sp f) (u ++ w) v
| m_foldr p st f w rs v : words p w rs -> rfold f rs st = Some v -> means (PFoldr p st f) w v
| m_foldr1 p st f w rs v : words p w rs -> rs <> [] -> rfold f rs st = Some v ->
    means (PFoldr1 p st f) w v
| m_foldr_ri p st f w rs v : words p w rs -> rfold f rs st = Some v ->
    means (PFoldrRejectIncomplete p st f) w v
| m_foldr_ri1 p st f w rs v : words p w rs -> rs <> [] -> rfold f rs st = Some v ->
    means (PFoldrRejectIncomplete1 p st f) w v
| m_foldr_swp p sp f w u rs v0 v : words p w rs -> means sp u v0 -> rfold f rs v0 = Some v ->
    means (PFoldrStartWithParser p sp f) (w ++ u) v
| m_iterate p k w rs : words p w rs -> Z.of_nat (length rs) = k ->
    means (PIterate p k) w (VSeq rs)
| m_sequence l w rs : sequel l w rs -> means (PSequence l) w (VSeq rs)
| m_sequence_apply t l w rs : sequel l w rs -> means (PSequenceApply t l) w (t rs)
| m_nth_of k l w rs v : sequel l w rs -> 0 <= k -> nth_error rs (Z.to_nat k) = Some v ->
    means (PNthOf k l) w v
| m_first_of l w v rs : sequel l w (v :: rs) -> means (PFirstOf l) w v
| m_last_of l w v rs : sequel l w (rs ++ [v]) -> means (PLastOf l) w v
| m_middle_of p1 p2 p3 w r1 r2 r3 : sequel [p1; p2; p3] w [r1; r2; r3] ->
    means (PMiddleOf p1 p2 p3) w r2
(** One word after the other. *)
with words : pexpr -> str -> list value -> Prop :=
| w_none p : words p [] []
| w_more p u r w rs : means p u r -> words p w rs -> words p (u ++ w) (r :: rs)
(** The parsers of a list, one after the other. *)
with sequel : list pexpr -> str -> list value -> Prop :=
| s_nil : sequel [] [] []
| s_cons p l u r w rs : means p u r -> sequel l w rs -> sequel (p :: l) (u ++ w) (r :: rs).
End Means.

(** No predicates, no parsers of the user, no recovery from errors. *)
Definition deriving (e : pexpr) : Prop :=
  match e with
  | PNative _ | PEmpty _ | PLookAhead _ | PExcept _ _ _ | PIf _ _ _
  | PFailAtFirstCharExpected _ | PEntireInput _ _ => False
  | PAcceptWhen p _ _ => single p
  | PTransformError _ f => keeps_errors f
  | PIterate _ k => 0 <= k
  | _ => True
  end.
