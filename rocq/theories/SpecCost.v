(** Which parsers are applied where while a parser is applied to a text.  Like
    SpecRules.v this refers only to the syntax of parser expressions; results are
    those of the rules. *)

From Coq Require Import ZArith List Bool.
From Verif Require Import Base Deep Spec SpecDeep SpecRules.
Import ListNotations.
Open Scope Z_scope.

(** [e] applies [p] once, where [e] is applied. *)
Inductive wraps : pexpr -> pexpr -> Prop :=
| w_accept_when p pr m : wraps (PAcceptWhen p pr m) p
| w_change_error_message p m : wraps (PChangeErrorMessage p m) p
| w_transform p f : wraps (PTransform p f) p
| w_transform_error p f : wraps (PTransformError p f) p
| w_transform_error_message p f : wraps (PTransformErrorMessage p f) p
| w_always p v : wraps (PAlways p v) p
| w_look_ahead p : wraps (PLookAhead p) p
| w_optional p d : wraps (POptional p d) p
| w_except p v m : wraps (PExcept p v m) p
| w_if p t f : wraps (PIf p t f) p
| w_fail_at_first p : wraps (PFailAtFirstCharExpected p) p
| w_entire_input p m : wraps (PEntireInput p m) p.

(** [e] applies [p] again and again, beginning where [e] is applied. *)
Inductive repeats : pexpr -> pexpr -> Prop :=
| r_foldl p st f : repeats (PFoldl p st f) p
| r_foldl1 p st f : repeats (PFoldl1 p st f) p
| r_foldl_ri p st f : repeats (PFoldlRejectIncomplete p st f) p
| r_foldl_ri1 p st f : repeats (PFoldlRejectIncomplete1 p st f) p
| r_foldr p st f : repeats (PFoldr p st f) p
| r_foldr1 p st f : repeats (PFoldr1 p st f) p
| r_foldr_ri p st f : repeats (PFoldrRejectIncomplete p st f) p
| r_foldr_ri1 p st f : repeats (PFoldrRejectIncomplete1 p st f) p
| r_foldr_swp p sp f : repeats (PFoldrStartWithParser p sp f) p.

(** [e] applies [sp], then [p] again and again. *)
Inductive starts_with : pexpr -> pexpr -> pexpr -> Prop :=
| s_foldl_swp p sp f : starts_with (PFoldlStartWithParser p sp f) p sp
| s_foldl_ri_swp p sp f : starts_with (PFoldlRejectIncompleteStartWithParser p sp f) p sp.

(** [e] applies the parsers [l] one after the other. *)
Inductive chains : pexpr -> list pexpr -> Prop :=
| c_sequence l : chains (PSequence l) l
| c_sequence_apply t l : chains (PSequenceApply t l) l
| c_nth_of k l : 0 <= k < Z.of_nat (length l) -> chains (PNthOf k l) l
| c_first_of l : chains (PFirstOf l) l
| c_last_of l : chains (PLastOf l) l
| c_middle_of p1 p2 p3 : chains (PMiddleOf p1 p2 p3) [p1; p2; p3].

(** A parser, a text and a position: in C++ [p::apply<s, ps>], which is
    instantiated once. *)
Definition application : Type := pexpr * str * pos.

Section Calls.
Variable sd : std.
Variable env : program.

(** Applying the first one applies the second one. *)
Inductive calls : application -> application -> Prop :=
| calls_ref k s ps : calls (PRef k, s, ps) (env k, s, ps)
| calls_wraps e p s ps : wraps e p -> calls (e, s, ps) (p, s, ps)
| calls_repeats e p s ps rs s' ps' : repeats e p -> many sd env p s ps rs s' ps' ->
    calls (e, s, ps) (p, s', ps')
| calls_iterate p k s ps rs s' ps' : many sd env p s ps rs s' ps' ->
    k < 0 \/ Z.of_nat (length rs) < k -> calls (PIterate p k, s, ps) (p, s', ps')
| calls_start e p sp s ps : starts_with e p sp -> calls (e, s, ps) (sp, s, ps)
| calls_after_start e p sp s ps v s1 ps1 rs s' ps' : starts_with e p sp ->
    gives sd env sp s ps (Accept v s1 ps1) -> many sd env p s1 ps1 rs s' ps' ->
    calls (e, s, ps) (p, s', ps')
| calls_last p sp f s ps rs s' ps' m pe : many sd env p s ps rs s' ps' ->
    gives sd env p s' ps' (Reject m pe) ->
    calls (PFoldrStartWithParser p sp f, s, ps) (sp, s', ps')
| calls_one_of l p s ps : In p l -> calls (POneOf l, s, ps) (p, s, ps)
| calls_in_turn e l1 p l2 s ps rs s' ps' : chains e (l1 ++ p :: l2) ->
    in_turn sd env l1 s ps rs s' ps' -> calls (e, s, ps) (p, s', ps').

(** ... directly or indirectly *)
Inductive reaches : application -> application -> Prop :=
| reaches_itself a : reaches a a
| reaches_more a b c : calls a b -> reaches b c -> reaches a c.

(** A chain of applications, each applying the next one. *)
Inductive call_chain : application -> list application -> Prop :=
| chain_end a : call_chain a [a]
| chain_more a b l : calls a b -> call_chain b l -> call_chain a (a :: l).

(** The repeated parser of a fold succeeds [k] times (or more) where the fold is
    applied: then the helper template behind the fold is instantiated with the
    state after [k] items. *)
Inductive fold_step : application -> nat -> Prop :=
| step_repeats e p s ps rs s' ps' : repeats e p -> many sd env p s ps rs s' ps' ->
    fold_step (e, s, ps) (length rs)
| step_starts_with e p sp s ps v s1 ps1 rs s' ps' : starts_with e p sp ->
    gives sd env sp s ps (Accept v s1 ps1) -> many sd env p s1 ps1 rs s' ps' ->
    fold_step (e, s, ps) (length rs).

(** All parsers that may be needed for [e] are in the list. *)
Definition all_parsers (e : pexpr) (es : list pexpr) : Prop :=
  In e es /\ (forall a c, In a es -> In c (children a) -> In c es)
  /\ forall k, In (PRef k) es -> In (env k) es.
End Calls.

(** The parsers written in [e]. *)
Fixpoint parts (e : pexpr) : list pexpr :=
  e :: match e with
  | PNative _ | PRef _ | PReturn _ | PFail _ | POneChar | PEmpty _
  | PKeyword _ _ | POneOfC _ | POneCharExceptC _ => []
  | PAcceptWhen p _ _ | PChangeErrorMessage p _ | PTransform p _
  | PTransformError p _ | PTransformErrorMessage p _ | PAlways p _
  | PLookAhead p | POptional p _ | PExcept p _ _ | PIf p _ _
  | PFailAtFirstCharExpected p | PFoldl p _ _ | PFoldl1 p _ _
  | PFoldlRejectIncomplete p _ _ | PFoldlRejectIncomplete1 p _ _
  | PFoldr p _ _ | PFoldr1 p _ _ | PFoldrRejectIncomplete p _ _
  | PFoldrRejectIncomplete1 p _ _ | PIterate p _ | PEntireInput p _ => parts p
  | PFoldlStartWithParser p sp _ | PFoldlRejectIncompleteStartWithParser p sp _
  | PFoldrStartWithParser p sp _ => parts p ++ parts sp
  | POneOf l | PSequence l | PSequenceApply _ l | PNthOf _ l | PFirstOf l
  | PLastOf l => flat_map parts l
  | PMiddleOf p1 p2 p3 => parts p1 ++ parts p2 ++ parts p3
  end.

(** ... in [e] and in the definitions of the first [K] named parsers *)
Definition written (env : program) (K : nat) (e : pexpr) : list pexpr :=
  parts e ++ flat_map (fun k => parts (env k)) (seq 0 K).
(** ... which are all there are *)
Definition names_below (env : program) (K : nat) (e : pexpr) : Prop :=
  forall k, In (PRef k) (written env K e) -> (k < K)%nat.

(** A parser for brackets with two kinds of closing brackets, without sharing. *)
Definition bracket (close : char) : pexpr := PSequence [POneOfC [40]; PRef 0; POneOfC [close]].
Definition two_brackets : program := fun _ => POneOf [bracket 41; bracket 93; POneOfC [97]].

(** All the letters [a], looked at again before every one of them. *)
Definition all_as : pexpr := PRepeated (POneOfC [97]).
Definition again : pexpr := PSequence [PLookAhead all_as; POneOfC [97]].
Definition again_and_again : pexpr := PRepeated again.
