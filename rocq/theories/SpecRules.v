(** What a parser does, as a set of rules: one rule per sentence of the
    reference documentation (doc/*.qbk).  There is no recursion bound, no
    evaluation order and no reference to the functions of the model: only the
    syntax of parser expressions (Deep.v) and the vocabulary of Spec.v.

    [gives sd env e s ps o]: the parser [e] applied to the text [s] at the
    position [ps] has the result [o], which is an acceptance or a rejection.
    Parsers that can not be instantiated and parsers that do not terminate have
    no result. *)

From Coq Require Import ZArith List Bool.
From Verif Require Import Base Deep Spec.
Import ListNotations.
Open Scope Z_scope.

Definition is_accept (o : outcome) : Prop := exists r s ps, o = Accept r s ps.
Definition is_reject (o : outcome) : Prop := exists m ps, o = Reject m ps.

(** The first acceptance among the outcomes [os]. *)
Definition first_accept (os : list outcome) (o : outcome) : Prop :=
  is_accept o /\ exists os1 os2, os = os1 ++ o :: os2 /\ Forall is_reject os1.

(** The outcomes [os] are the rejections [es]. *)
Definition rejections (os : list outcome) (es : list (msg * pos)) : Prop :=
  os = map (fun e => Reject (fst e) (snd e)) es.

(** The error of a choice at [ps] whose alternatives failed with [es]: the last
    one of the furthest errors, [none_of_the_expected_cases_found] at [ps] being
    considered too - before the others in C++98, after them otherwise. *)
Definition choice_error (sd : std) (ps : pos) (es : list (msg * pos))
  (e : msg * pos) : Prop :=
  match sd with
  | Std98 => last_furthest ((none_of_the_expected_cases_found, ps) :: es) e
  | _ => last_furthest (es ++ [(none_of_the_expected_cases_found, ps)]) e
  end.

(** The error message of one_of_c. *)
Definition one_of_c_error (sd : std) (cs : list char) (s : str) : msg :=
  match sd with
  | Std98 => last (map literal_expected cs) none_of_the_expected_cases_found
  | _ => match s with
         | [] => unexpected_end_of_input
         | _ => none_of_the_expected_cases_found
         end
  end.

Section Rules.
Variable sd : std.
Variable env : program.

Inductive gives : pexpr -> str -> pos -> outcome -> Prop :=
(* parsers of the user *)
| g_native_accept p s ps r s' ps' : p s ps = Accept r s' ps' ->
    gives (PNative p) s ps (Accept r s' ps')
| g_native_reject p s ps m pe : p s ps = Reject m pe ->
    gives (PNative p) s ps (Reject m pe)
| g_ref k s ps o : gives (env k) s ps o -> gives (PRef k) s ps o
(* basic parsers *)
| g_return v s ps : gives (PReturn v) s ps (Accept v s ps)
| g_fail m s ps : gives (PFail m) s ps (Reject m ps)
| g_one_char c s ps ps' : walk ps [c] ps' ->
    gives POneChar (c :: s) ps (Accept (VChar c) s ps')
| g_one_char_end ps : gives POneChar [] ps (Reject unexpected_end_of_input ps)
| g_empty r ps : gives (PEmpty r) [] ps (Accept r [] ps)
| g_empty_more r c s ps : gives (PEmpty r) (c :: s) ps (Reject end_of_input_expected ps)
| g_keyword kw r s ps ps' : walk ps kw ps' ->
    gives (PKeyword kw r) (kw ++ s) ps (Accept r s ps')
| g_keyword_differs u c kw r s ps pe :
    not_starting_with (fun d => d = c) s -> walk ps u pe ->
    gives (PKeyword (u ++ c :: kw) r) (u ++ s) ps (Reject (literal_expected c) pe)
| g_one_of_c cs c s ps ps' : In c cs -> walk ps [c] ps' ->
    gives (POneOfC cs) (c :: s) ps (Accept (VChar c) s ps')
| g_one_of_c_error cs s ps : not_starting_with (fun c => In c cs) s ->
    gives (POneOfC cs) s ps (Reject (one_of_c_error sd cs s) ps)
| g_one_char_except cs c s ps ps' : ~ In c cs -> walk ps [c] ps' ->
    gives (POneCharExceptC cs) (c :: s) ps (Accept (VChar c) s ps')
| g_one_char_except_excluded cs c s ps : In c cs ->
    gives (POneCharExceptC cs) (c :: s) ps (Reject unexpected_character ps)
| g_one_char_except_end cs ps :
    gives (POneCharExceptC cs) [] ps (Reject unexpected_end_of_input ps)
(* accept_when *)
| g_accept_when p pr m s ps r s' ps' : gives p s ps (Accept r s' ps') ->
    pr r = Some true -> gives (PAcceptWhen p pr m) s ps (Accept r s' ps')
| g_accept_when_not p pr m s ps r s' ps' : gives p s ps (Accept r s' ps') ->
    pr r = Some false -> gives (PAcceptWhen p pr m) s ps (Reject m ps)
| g_accept_when_fails p pr m s ps m' pe : gives p s ps (Reject m' pe) ->
    gives (PAcceptWhen p pr m) s ps (Reject m' pe)
(* changing results and errors *)
| g_change_error_message_ok p m s ps r s' ps' : gives p s ps (Accept r s' ps') ->
    gives (PChangeErrorMessage p m) s ps (Accept r s' ps')
| g_change_error_message p m s ps m' pe : gives p s ps (Reject m' pe) ->
    gives (PChangeErrorMessage p m) s ps (Reject m ps)
| g_transform p f s ps r s' ps' v : gives p s ps (Accept r s' ps') -> f r = Some v ->
    gives (PTransform p f) s ps (Accept v s' ps')
| g_transform_fails p f s ps m pe : gives p s ps (Reject m pe) ->
    gives (PTransform p f) s ps (Reject m pe)
| g_transform_error_ok p f s ps r s' ps' : gives p s ps (Accept r s' ps') ->
    gives (PTransformError p f) s ps (Accept r s' ps')
| g_transform_error p f s ps m pe o : gives p s ps (Reject m pe) -> f m pe = o ->
    is_accept o \/ is_reject o -> gives (PTransformError p f) s ps o
| g_transform_error_message_ok p f s ps r s' ps' : gives p s ps (Accept r s' ps') ->
    gives (PTransformErrorMessage p f) s ps (Accept r s' ps')
| g_transform_error_message p f s ps m pe m' : gives p s ps (Reject m pe) ->
    f m = Some m' -> gives (PTransformErrorMessage p f) s ps (Reject m' pe)
| g_always p v s ps r s' ps' : gives p s ps (Accept r s' ps') ->
    gives (PAlways p v) s ps (Accept v s' ps')
| g_always_fails p v s ps m pe : gives p s ps (Reject m pe) ->
    gives (PAlways p v) s ps (Reject m pe)
| g_look_ahead p s ps r s' ps' : gives p s ps (Accept r s' ps') ->
    gives (PLookAhead p) s ps (Accept r s ps)
| g_look_ahead_fails p s ps m pe : gives p s ps (Reject m pe) ->
    gives (PLookAhead p) s ps (Reject m pe)
| g_optional p d s ps r s' ps' : gives p s ps (Accept r s' ps') ->
    gives (POptional p d) s ps (Accept r s' ps')
| g_optional_default p d s ps m pe : gives p s ps (Reject m pe) ->
    gives (POptional p d) s ps (Accept d s ps)
| g_except p v m s ps m' pe : gives p s ps (Reject m' pe) ->
    gives (PExcept p v m) s ps (Accept v s ps)
| g_except_fails p v m s ps r s' ps' : gives p s ps (Accept r s' ps') ->
    gives (PExcept p v m) s ps (Reject m ps)
| g_if_then p t f s ps r s' ps' : gives p s ps (Accept r s' ps') ->
    gives (PIf p t f) s ps (Accept t s ps)
| g_if_else p t f s ps m pe : gives p s ps (Reject m pe) ->
    gives (PIf p t f) s ps (Accept f s ps)
| g_fail_at_first p s ps m : gives p s ps (Reject m ps) ->
    gives (PFailAtFirstCharExpected p) s ps (Accept VVoid_ s ps)
| g_fail_at_first_later p s ps m pe : gives p s ps (Reject m pe) -> pe <> ps ->
    gives (PFailAtFirstCharExpected p) s ps (Reject m pe)
| g_fail_at_first_accepts p s ps r s' ps' : gives p s ps (Accept r s' ps') ->
    gives (PFailAtFirstCharExpected p) s ps (Reject expected_to_fail ps)
(* folds *)
| g_foldl p st f s ps rs s' ps' m pe v0 v : many p s ps rs s' ps' ->
    gives p s' ps' (Reject m pe) -> st = Some v0 -> lfold f rs v0 = Some v ->
    gives (PFoldl p st f) s ps (Accept v s' ps')
| g_foldl1 p st f s ps r rs s' ps' m pe v0 v : many p s ps (r :: rs) s' ps' ->
    gives p s' ps' (Reject m pe) -> st = Some v0 -> lfold f (r :: rs) v0 = Some v ->
    gives (PFoldl1 p st f) s ps (Accept v s' ps')
| g_foldl1_fails p st f s ps m pe : gives p s ps (Reject m pe) ->
    gives (PFoldl1 p st f) s ps (Reject m pe)
| g_foldl_ri p st f s ps rs s' ps' m v0 v : many p s ps rs s' ps' ->
    gives p s' ps' (Reject m ps') -> st = Some v0 -> lfold f rs v0 = Some v ->
    gives (PFoldlRejectIncomplete p st f) s ps (Accept v s' ps')
| g_foldl_ri_incomplete p st f s ps rs s' ps' m pe : many p s ps rs s' ps' ->
    gives p s' ps' (Reject m pe) -> pe <> ps' ->
    (rs = [] \/ exists v0 v, st = Some v0 /\ lfold f (removelast rs) v0 = Some v) ->
    gives (PFoldlRejectIncomplete p st f) s ps (Reject m pe)
| g_foldl_ri1 p st f s ps r rs s' ps' m v0 v : many p s ps (r :: rs) s' ps' ->
    gives p s' ps' (Reject m ps') -> st = Some v0 -> lfold f (r :: rs) v0 = Some v ->
    gives (PFoldlRejectIncomplete1 p st f) s ps (Accept v s' ps')
| g_foldl_ri1_incomplete p st f s ps r rs s' ps' m pe v0 v :
    many p s ps (r :: rs) s' ps' -> gives p s' ps' (Reject m pe) -> pe <> ps' ->
    st = Some v0 -> lfold f (removelast (r :: rs)) v0 = Some v ->
    gives (PFoldlRejectIncomplete1 p st f) s ps (Reject m pe)
| g_foldl_ri1_fails p st f s ps m pe : gives p s ps (Reject m pe) ->
    gives (PFoldlRejectIncomplete1 p st f) s ps (Reject m pe)
| g_foldl_swp p sp f s ps v0 s1 ps1 rs s' ps' m pe v :
    gives sp s ps (Accept v0 s1 ps1) -> v0 <> VVoid -> many p s1 ps1 rs s' ps' ->
    gives p s' ps' (Reject m pe) -> lfold f rs v0 = Some v ->
    gives (PFoldlStartWithParser p sp f) s ps (Accept v s' ps')
| g_foldl_swp_fails p sp f s ps m pe : gives sp s ps (Reject m pe) ->
    gives (PFoldlStartWithParser p sp f) s ps (Reject m pe)
| g_foldl_ri_swp p sp f s ps v0 s1 ps1 rs s' ps' m v :
    gives sp s ps (Accept v0 s1 ps1) -> v0 <> VVoid -> many p s1 ps1 rs s' ps' ->
    gives p s' ps' (Reject m ps') -> lfold f rs v0 = Some v ->
    gives (PFoldlRejectIncompleteStartWithParser p sp f) s ps (Accept v s' ps')
| g_foldl_ri_swp_incomplete p sp f s ps v0 s1 ps1 rs s' ps' m pe v :
    gives sp s ps (Accept v0 s1 ps1) -> (v0 = VVoid -> rs = []) -> many p s1 ps1 rs s' ps' ->
    gives p s' ps' (Reject m pe) -> pe <> ps' -> lfold f (removelast rs) v0 = Some v ->
    gives (PFoldlRejectIncompleteStartWithParser p sp f) s ps (Reject m pe)
| g_foldl_ri_swp_fails p sp f s ps m pe : gives sp s ps (Reject m pe) ->
    gives (PFoldlRejectIncompleteStartWithParser p sp f) s ps (Reject m pe)
| g_foldr_swp p sp f s ps rs s1 ps1 m pe v0 s' ps' v : many p s ps rs s1 ps1 ->
    gives p s1 ps1 (Reject m pe) -> gives sp s1 ps1 (Accept v0 s' ps') ->
    rfold f rs v0 = Some v ->
    gives (PFoldrStartWithParser p sp f) s ps (Accept v s' ps')
| g_foldr_swp_fails p sp f s ps rs s1 ps1 m pe m' pe' : many p s ps rs s1 ps1 ->
    gives p s1 ps1 (Reject m pe) -> gives sp s1 ps1 (Reject m' pe') ->
    gives (PFoldrStartWithParser p sp f) s ps (Reject m' pe')
| g_foldr p st f s ps rs s' ps' m pe v : many p s ps rs s' ps' ->
    gives p s' ps' (Reject m pe) -> rfold f rs st = Some v ->
    gives (PFoldr p st f) s ps (Accept v s' ps')
| g_foldr1 p st f s ps r rs s' ps' m pe v : many p s ps (r :: rs) s' ps' ->
    gives p s' ps' (Reject m pe) -> rfold f (r :: rs) st = Some v ->
    gives (PFoldr1 p st f) s ps (Accept v s' ps')
| g_foldr1_fails p st f s ps m pe : gives p s ps (Reject m pe) ->
    gives (PFoldr1 p st f) s ps (Reject m pe)
| g_foldr_ri p st f s ps rs s' ps' m v : many p s ps rs s' ps' ->
    gives p s' ps' (Reject m ps') -> rfold f rs st = Some v ->
    gives (PFoldrRejectIncomplete p st f) s ps (Accept v s' ps')
| g_foldr_ri_incomplete p st f s ps rs s' ps' m pe : many p s ps rs s' ps' ->
    gives p s' ps' (Reject m pe) -> pe <> ps' ->
    gives (PFoldrRejectIncomplete p st f) s ps (Reject m pe)
| g_foldr_ri1 p st f s ps r rs s' ps' m v : many p s ps (r :: rs) s' ps' ->
    gives p s' ps' (Reject m ps') -> rfold f (r :: rs) st = Some v ->
    gives (PFoldrRejectIncomplete1 p st f) s ps (Accept v s' ps')
| g_foldr_ri1_incomplete p st f s ps r rs s' ps' m pe : many p s ps (r :: rs) s' ps' ->
    gives p s' ps' (Reject m pe) -> pe <> ps' ->
    gives (PFoldrRejectIncomplete1 p st f) s ps (Reject m pe)
| g_foldr_ri1_fails p st f s ps m pe : gives p s ps (Reject m pe) ->
    gives (PFoldrRejectIncomplete1 p st f) s ps (Reject m pe)
(* iterate: a negative number of times means until [p] fails, in vain *)
| g_iterate p k s ps rs s' ps' : many p s ps rs s' ps' -> Z.of_nat (length rs) = k ->
    gives (PIterate p k) s ps (Accept (VSeq rs) s' ps')
| g_iterate_fails p k s ps rs s' ps' m pe : many p s ps rs s' ps' ->
    (k < 0 \/ Z.of_nat (length rs) < k) -> gives p s' ps' (Reject m pe) ->
    gives (PIterate p k) s ps (Reject m pe)
(* choice *)
| g_one_of l s ps os o : each l s ps os -> first_accept os o ->
    gives (POneOf l) s ps o
| g_one_of_fails l s ps os es m pe : each l s ps os -> rejections os es ->
    choice_error sd ps es (m, pe) -> gives (POneOf l) s ps (Reject m pe)
(* sequences *)
| g_sequence l s ps rs s' ps' : in_turn l s ps rs s' ps' ->
    gives (PSequence l) s ps (Accept (VSeq rs) s' ps')
| g_sequence_fails l s ps m pe : breaks_off l s ps m pe ->
    gives (PSequence l) s ps (Reject m pe)
| g_sequence_apply t l s ps rs s' ps' : in_turn l s ps rs s' ps' ->
    gives (PSequenceApply t l) s ps (Accept (t rs) s' ps')
| g_sequence_apply_fails t l s ps m pe : breaks_off l s ps m pe ->
    gives (PSequenceApply t l) s ps (Reject m pe)
| g_nth_of k l s ps rs s' ps' v : in_turn l s ps rs s' ps' -> 0 <= k ->
    nth_error rs (Z.to_nat k) = Some v -> gives (PNthOf k l) s ps (Accept v s' ps')
| g_nth_of_fails k l s ps m pe : breaks_off l s ps m pe ->
    0 <= k < Z.of_nat (length l) -> gives (PNthOf k l) s ps (Reject m pe)
| g_nth_of_range k l s ps : k < 0 \/ Z.of_nat (length l) <= k ->
    gives (PNthOf k l) s ps
      (Reject (index_out_of_range 0 (Z.of_nat (length l) - 1) k) ps)
| g_first_of l s ps v rs s' ps' : in_turn l s ps (v :: rs) s' ps' ->
    gives (PFirstOf l) s ps (Accept v s' ps')
| g_first_of_fails l s ps m pe : breaks_off l s ps m pe ->
    gives (PFirstOf l) s ps (Reject m pe)
| g_first_of_none s ps :
    gives (PFirstOf []) s ps (Reject (index_out_of_range 0 (-1) 0) ps)
| g_last_of l s ps v rs s' ps' : in_turn l s ps (rs ++ [v]) s' ps' ->
    gives (PLastOf l) s ps (Accept v s' ps')
| g_last_of_fails l s ps m pe : breaks_off l s ps m pe ->
    gives (PLastOf l) s ps (Reject m pe)
| g_last_of_none s ps : gives (PLastOf []) s ps
    (Reject (index_out_of_range 0 (-1) (match sd with Std98 => -1 | _ => 0 end)) ps)
| g_middle_of p1 p2 p3 s ps r1 r2 r3 s' ps' :
    in_turn [p1; p2; p3] s ps [r1; r2; r3] s' ps' ->
    gives (PMiddleOf p1 p2 p3) s ps (Accept r2 s' ps')
| g_middle_of_fails p1 p2 p3 s ps m pe : breaks_off [p1; p2] s ps m pe ->
    gives (PMiddleOf p1 p2 p3) s ps (Reject m pe)
| g_middle_of_unpaired p1 p2 p3 s ps rs s' ps' m pe :
    in_turn [p1; p2] s ps rs s' ps' -> gives p3 s' ps' (Reject m pe) ->
    gives (PMiddleOf p1 p2 p3) s ps (Reject (unpaired (line ps) (col ps) m) pe)
| g_entire_input p m s ps r ps' : gives p s ps (Accept r [] ps') ->
    gives (PEntireInput p m) s ps (Accept r [] ps')
| g_entire_input_more p m s ps r c s' ps' : gives p s ps (Accept r (c :: s') ps') ->
    gives (PEntireInput p m) s ps (Reject m ps')
| g_entire_input_fails p m s ps m' pe : gives p s ps (Reject m' pe) ->
    gives (PEntireInput p m) s ps (Reject m' pe)
(** [p] accepts [rs] one after the other. *)
with many : pexpr -> str -> pos -> list value -> str -> pos -> Prop :=
| many_none p s ps : many p s ps [] s ps
| many_more p s ps r s1 ps1 rs s2 ps2 : gives p s ps (Accept r s1 ps1) ->
    many p s1 ps1 rs s2 ps2 -> many p s ps (r :: rs) s2 ps2
(** The parsers [l] accept [rs] one after the other. *)
with in_turn : list pexpr -> str -> pos -> list value -> str -> pos -> Prop :=
| in_turn_nil s ps : in_turn [] s ps [] s ps
| in_turn_cons p l s ps r s1 ps1 rs s2 ps2 : gives p s ps (Accept r s1 ps1) ->
    in_turn l s1 ps1 rs s2 ps2 -> in_turn (p :: l) s ps (r :: rs) s2 ps2
(** One of the parsers [l], applied one after the other, rejects. *)
with breaks_off : list pexpr -> str -> pos -> msg -> pos -> Prop :=
| breaks_off_here p l s ps m pe : gives p s ps (Reject m pe) ->
    breaks_off (p :: l) s ps m pe
| breaks_off_later p l s ps r s1 ps1 m pe : gives p s ps (Accept r s1 ps1) ->
    breaks_off l s1 ps1 m pe -> breaks_off (p :: l) s ps m pe
(** The results of the parsers [l], all applied to the same text. *)
with each : list pexpr -> str -> pos -> list outcome -> Prop :=
| each_nil s ps : each [] s ps []
| each_cons p l s ps o os : gives p s ps o -> each l s ps os ->
    each (p :: l) s ps (o :: os).
End Rules.
