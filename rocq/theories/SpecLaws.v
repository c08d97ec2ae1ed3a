(** Laws of parsers: an equational theory.  Only the syntax of parser expressions
    and the vocabulary of Spec.v and SpecReplace.v are used. *)

From Coq Require Import ZArith List Bool.
From Verif Require Import Base Deep Spec SpecDeep SpecRules SpecReplace.
Import ListNotations.
Open Scope Z_scope.

(** One metafunction class after the other. *)
Definition after {A B C : Type} (g : B -> option C) (f : A -> option B) (x : A) : option C :=
  match f x with Some y => g y | None => None end.

(** Both conditions; the second one is only asked when the first one holds. *)
Definition both (a b : pred1) : pred1 := fun x =>
  match a x with Some true => b x | o => o end.

(** A metafunction class that is defined for all arguments. *)
Definition total1 (f : mf1) : Prop := forall v, exists w, f v = Some w.

(** [law sd a b]: the parsers [a] and [b] do the same (in the version [sd] of the
    language). *)
Inductive law (sd : std) : pexpr -> pexpr -> Prop :=
(* changing results *)
| law_transform_twice p f g :
    law sd (PTransform (PTransform p f) g) (PTransform p (after g f))
| law_transform_nothing p : law sd (PTransform p Some) p
| law_transform_return f v w : f v = Some w -> law sd (PTransform (PReturn v) f) (PReturn w)
| law_transform_fail f m : law sd (PTransform (PFail m) f) (PFail m)
| law_transform_one_of f l : total1 f ->
    law sd (PTransform (POneOf l) f) (POneOf (map (fun p => PTransform p f) l))
| law_always p v : law sd (PAlways p v) (PTransform p (fun _ => Some v))
| law_sequence_apply t l : law sd (PSequenceApply t l)
    (PTransform (PSequence l) (fun v => match v with VSeq rs => Some (t rs) | _ => None end))
(* conditions *)
| law_accept_when_true p m : law sd (PAcceptWhen p (fun _ => Some true) m) p
| law_accept_when_twice p a b m :
    law sd (PAcceptWhen (PAcceptWhen p a m) b m) (PAcceptWhen p (both a b) m)
(* changing errors *)
| law_change_error_message_twice p m m' :
    law sd (PChangeErrorMessage (PChangeErrorMessage p m) m') (PChangeErrorMessage p m')
| law_transform_error_message_twice p f g :
    law sd (PTransformErrorMessage (PTransformErrorMessage p f) g)
        (PTransformErrorMessage p (after g f))
| law_transform_error_message p f :
    law sd (PTransformErrorMessage p f)
        (PTransformError p (fun m pe => match f m with
                                        | Some m' => Reject m' pe
                                        | None => Illformed
                                        end))
| law_transform_transform_error_message p f g :
    law sd (PTransform (PTransformErrorMessage p g) f) (PTransformErrorMessage (PTransform p f) g)
(* looking ahead *)
| law_look_ahead_twice p : law sd (PLookAhead (PLookAhead p)) (PLookAhead p)
| law_look_ahead_transform p f :
    law sd (PLookAhead (PTransform p f)) (PTransform (PLookAhead p) f)
| law_if p t f : law sd (PIf p t f) (POptional (PAlways (PLookAhead p) t) f)
| law_if_look_ahead p t f : law sd (PIf (PLookAhead p) t f) (PIf p t f)
| law_except_look_ahead p v m : law sd (PExcept (PLookAhead p) v m) (PExcept p v m)
| law_except_twice p v m w m' :
    law sd (PExcept (PExcept p v m) w m') (PChangeErrorMessage (PAlways (PLookAhead p) w) m')
(* defaults *)
| law_optional_twice p d d' : law sd (POptional (POptional p d) d') (POptional p d)
| law_optional p d : law sd (POptional p d) (POneOf [p; PReturn d])
(* repetition *)
| law_foldl1 p v f : (forall r, f v r <> Some VVoid) -> law sd (PFoldl1 p (Some v) f)
    (PFoldlStartWithParser p (PTransform p (fun r => f v r)) f)
| law_foldl p v f : law sd (PFoldl p (Some v) f) (POptional (PFoldl1 p (Some v) f) v)
| law_foldl_start p v f : v <> VVoid -> law sd (PFoldlStartWithParser p (PReturn v) f) (PFoldl p (Some v) f)
| law_foldr p v f : law sd (PFoldr p v f) (POptional (PFoldr1 p v f) v)
| law_foldr_start p v f : law sd (PFoldrStartWithParser p (PReturn v) f) (PFoldr p v f)
| law_foldl_ri_start p v f : v <> VVoid ->
    law sd (PFoldlRejectIncompleteStartWithParser p (PReturn v) f)
        (PFoldlRejectIncomplete p (Some v) f)
| law_iterate p k : law sd (PIterate p (Z.of_nat k)) (PSequence (repeat p k))
(* choice *)
| law_one_of_nested l1 l2 l3 : sd <> Std98 ->
    law sd (POneOf (l1 ++ POneOf l2 :: l3)) (POneOf (l1 ++ l2 ++ l3))
| law_one_of_none : law sd (POneOf []) (PFail none_of_the_expected_cases_found)
(* sequences *)
| law_first_of_one p : law sd (PFirstOf [p]) p
| law_last_of_one p : law sd (PLastOf [p]) p
| law_sequence_one p : law sd (PSequence [p]) (PTransform p (fun v => Some (VSeq [v])))
| law_sequence_none : law sd (PSequence []) (PReturn (VSeq []))
| law_first_of p l : law sd (PFirstOf (p :: l)) (PNthOf 0 (p :: l))
| law_last_of l : l <> [] -> law sd (PLastOf l) (PNthOf (Z.of_nat (length l) - 1) l)
| law_first_of_nested p l1 l2 :
    law sd (PFirstOf (PFirstOf (p :: l1) :: l2)) (PFirstOf (p :: l1 ++ l2))
| law_last_of_nested l1 l2 : l2 <> [] ->
    law sd (PLastOf (l1 ++ [PLastOf l2])) (PLastOf (l1 ++ l2))
| law_last_of_return l v w : law sd (PLastOf (l ++ [PReturn v; PReturn w])) (PLastOf (l ++ [PReturn w]))
(* the end of the text *)
| law_entire_input p m v :
    law sd (PEntireInput p m) (PFirstOf [p; PChangeErrorMessage (PEmpty v) m])
| law_entire_input_twice p m m' :
    law sd (PEntireInput (PEntireInput p m) m') (PEntireInput p m)
| law_empty v : law sd (PEmpty v) (PExcept POneChar v end_of_input_expected)
(* characters *)
| law_keyword_none v : law sd (PKeyword [] v) (PReturn v)
| law_keyword_app k1 k2 v w :
    law sd (PKeyword (k1 ++ k2) v) (PLastOf [PKeyword k1 w; PKeyword k2 v]).

(** [b] arises from [a] by applying laws, in both directions, to any parts of
    it, any number of times. *)
Inductive rewritten (sd : std) : pexpr -> pexpr -> Prop :=
| rewritten_same a : rewritten sd a a
| rewritten_step a b c : replaced (law sd) a b -> rewritten sd b c -> rewritten sd a c
| rewritten_back a b c : replaced (law sd) b a -> rewritten sd b c -> rewritten sd a c.
