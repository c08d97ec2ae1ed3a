(** C08 - C14: folds and repetition.

    [n] is the bound on the instantiation depth; a fold over [k] elements needs
    the depth [k + 1]. *)

From Coq Require Import ZArith List Bool.
From Verif Require Import Base Util Combinators Variadic Parsers Spec
  Proofs_Pos Proofs_Fold Proofs_Variadic Proofs_Parsers Proofs_Final2.
Import ListNotations.
Open Scope Z_scope.

(** ** C08 foldl *)

Theorem C08_foldl_accepts : forall n p st f s ps v rem ps',
  foldl n p (Some st) f s ps = Accept v rem ps' <->
  exists rs m pe, (length rs < n)%nat
    /\ runs p s ps rs rem ps'
    /\ p rem ps' = Reject m pe
    /\ lfold f rs st = Some v.
Proof. exact foldl_accept. Qed.
Print Assumptions C08_foldl_accepts.

Theorem C08_foldl_never_rejects : forall n p st f s ps m pe,
  foldl n p st f s ps <> Reject m pe.
Proof. exact foldl_not_reject. Qed.
Print Assumptions C08_foldl_never_rejects.

(** It is ill-formed exactly when the element parser is ill-formed at a reached
    place or the operation is not defined on the elements. *)
Theorem C08_foldl_illformed : forall n p st f s ps,
  foldl n p (Some st) f s ps = Illformed <->
  exists rs s1 ps1, (length rs < n)%nat /\ runs p s ps rs s1 ps1
    /\ lfold f (removelast rs) st <> None
    /\ (p s1 ps1 = Illformed \/ (finishes p s1 ps1 /\ lfold f rs st = None)).
Proof. exact foldl_illformed. Qed.
Print Assumptions C08_foldl_illformed.

(** "12a" folded with next_digit *)
Example C08_case :
  foldl 3 digit_val (Some (VInt 0)) next_digit (text "12a") start
    = Accept (VInt 12) (text "a") (mkpos 1 3 50)
  /\ runs digit_val (text "12a") start [VInt 1; VInt 2] (text "a") (mkpos 1 3 50)
  /\ rejects digit_val (text "a") (mkpos 1 3 50)
  /\ lfold next_digit [VInt 1; VInt 2] (VInt 0) = Some (VInt 12)
  /\ foldl 2 digit_val (Some (VInt 0)) next_digit (text "12a") start = OutOfFuel
  /\ foldl 9 digit_val (Some VVoid) next_digit (text "12a") start = Illformed.
Proof.
  repeat split; try (vm_compute; reflexivity).
  - econstructor; [vm_compute; reflexivity|]. econstructor; [vm_compute; reflexivity|]. constructor.
  - exists digit_expected, (mkpos 1 3 50). vm_compute. reflexivity.
Qed.

(** ** C09 foldr *)

Theorem C09_foldr_accepts : forall n p st f s ps v rem ps',
  foldr n p st f s ps = Accept v rem ps' <->
  exists rs m pe, (length rs < n)%nat
    /\ runs p s ps rs rem ps'
    /\ p rem ps' = Reject m pe
    /\ rfold f rs st = Some v.
Proof. exact foldr_accept. Qed.
Print Assumptions C09_foldr_accepts.

Theorem C09_foldr_never_rejects : forall n p st f s ps m pe,
  foldr n p st f s ps <> Reject m pe.
Proof. exact foldr_not_reject. Qed.
Print Assumptions C09_foldr_never_rejects.

Theorem C09_foldr_illformed : forall n p st f s ps,
  foldr n p st f s ps = Illformed <->
  exists rs s1 ps1, (length rs < n)%nat /\ runs p s ps rs s1 ps1
    /\ (p s1 ps1 = Illformed \/ (rejects p s1 ps1 /\ rfold f rs st = None)).
Proof. exact foldr_illformed. Qed.
Print Assumptions C09_foldr_illformed.

Theorem C09_foldr_front_inserter_is_repeated : forall n p,
  same_parser (repeated n p) (foldr n p (VSeq []) front_inserter).
Proof. exact foldl_back_foldr_front. Qed.
Print Assumptions C09_foldr_front_inserter_is_repeated.

(** The operation builds T<state, element>, so the order of folding is visible. *)
Definition pair_op : mf2 := fun a b => Some (VTmpl 0 [a; b]).
Example C09_case :
  foldr 9 digit_val VVoid pair_op (text "12a") start
    = Accept (VTmpl 0 [VTmpl 0 [VVoid; VInt 2]; VInt 1]) (text "a") (mkpos 1 3 50)
  /\ rfold pair_op [VInt 1; VInt 2] VVoid = Some (VTmpl 0 [VTmpl 0 [VVoid; VInt 2]; VInt 1])
  /\ foldl 9 digit_val (Some (VInt 7)) pair_op (text "12a") start
    = Accept (VTmpl 0 [VTmpl 0 [VInt 7; VInt 1]; VInt 2]) (text "a") (mkpos 1 3 50).
Proof. vm_compute. auto. Qed.

(** ** C10 folds starting with a parser *)

Theorem C10_foldl_start_with_parser_accepts : forall n p sp f s ps v rem ps',
  foldl_start_with_parser n p sp f s ps = Accept v rem ps' <->
  exists v0 s1 ps1 rs m pe, sp s ps = Accept v0 s1 ps1 /\ v0 <> VVoid
    /\ (length rs < n)%nat /\ runs p s1 ps1 rs rem ps'
    /\ p rem ps' = Reject m pe /\ lfold f rs v0 = Some v.
Proof. exact foldl_swp_accept. Qed.
Print Assumptions C10_foldl_start_with_parser_accepts.

Theorem C10_foldl_start_with_parser_rejects : forall n p sp f s ps m pe,
  foldl_start_with_parser n p sp f s ps = Reject m pe <-> sp s ps = Reject m pe.
Proof. exact foldl_swp_reject. Qed.
Print Assumptions C10_foldl_start_with_parser_rejects.

Theorem C10_foldr_start_with_parser_accepts : forall n p sp f s ps v rem ps',
  foldr_start_with_parser n p sp f s ps = Accept v rem ps' <->
  exists rs s1 ps1 m pe v0, (length rs < n)%nat /\ runs p s ps rs s1 ps1
    /\ p s1 ps1 = Reject m pe /\ sp s1 ps1 = Accept v0 rem ps'
    /\ rfold f rs v0 = Some v.
Proof. exact foldr_swp_accept. Qed.
Print Assumptions C10_foldr_start_with_parser_accepts.

Theorem C10_foldr_start_with_parser_rejects : forall n p sp f s ps m' pe',
  foldr_start_with_parser n p sp f s ps = Reject m' pe' <->
  exists rs s1 ps1 m pe, (length rs < n)%nat /\ runs p s ps rs s1 ps1
    /\ p s1 ps1 = Reject m pe /\ sp s1 ps1 = Reject m' pe'.
Proof. exact foldr_swp_reject. Qed.
Print Assumptions C10_foldr_start_with_parser_rejects.

Theorem C10_foldl_reject_incomplete_start_with_parser_accepts :
  forall n p sp f s ps v rem ps',
  foldl_reject_incomplete_start_with_parser n p sp f s ps = Accept v rem ps' <->
  exists v0 s1 ps1 rs m, sp s ps = Accept v0 s1 ps1 /\ v0 <> VVoid
    /\ (length rs < n)%nat /\ runs p s1 ps1 rs rem ps'
    /\ p rem ps' = Reject m ps' /\ lfold f rs v0 = Some v.
Proof. exact foldl_ri_swp_accept. Qed.
Print Assumptions C10_foldl_reject_incomplete_start_with_parser_accepts.

Theorem C10_foldl_reject_incomplete_start_with_parser_rejects :
  forall n p sp f s ps m pe,
  foldl_reject_incomplete_start_with_parser n p sp f s ps = Reject m pe <->
  sp s ps = Reject m pe
  \/ exists v0 s1 ps1 rs s2 ps2, sp s ps = Accept v0 s1 ps1 /\ (v0 = VVoid -> rs = [])
      /\ (length rs < n)%nat /\ runs p s1 ps1 rs s2 ps2
      /\ p s2 ps2 = Reject m pe /\ pe <> ps2 /\ lfold f (removelast rs) v0 <> None.
Proof. exact foldl_ri_swp_reject. Qed.
Print Assumptions C10_foldl_reject_incomplete_start_with_parser_rejects.

(** "1+2+x": elements are "+digit". *)
Definition plus_digit : pfun := last_of (default_config Std11) [lit_c 43; digit_val].
Example C10_case :
  foldl_start_with_parser 9 plus_digit digit_val pair_op (text "1+2+3.") start
    = Accept (VTmpl 0 [VTmpl 0 [VInt 1; VInt 2]; VInt 3]) (text ".") (mkpos 1 6 51)
  /\ foldl_start_with_parser 9 plus_digit digit_val pair_op (text "1+2+x") start
    = Accept (VTmpl 0 [VInt 1; VInt 2]) (text "+x") (mkpos 1 4 50)
  /\ foldl_reject_incomplete_start_with_parser 9 plus_digit digit_val pair_op (text "1+2+x") start
    = Reject digit_expected (mkpos 1 5 43)
  /\ foldr_start_with_parser 9 digit_val (lit_c 46) pair_op (text "12.") start
    = Accept (VTmpl 0 [VTmpl 0 [VChar 46; VInt 2]; VInt 1]) [] (mkpos 1 4 46)
  /\ foldr_start_with_parser 9 digit_val (lit_c 46) pair_op (text "12") start
    = Reject (literal_expected 46) (mkpos 1 3 50).
Proof. vm_compute. auto. Qed.

(** The result of the state parser becomes the state as it is, and the left folds
    take its [::type]: where it is [void], which has none, they do not compile
    once they need the state, whatever the elements are. *)
Theorem C10_void_state : forall n p sp f s ps s1 ps1, sp s ps = Accept VVoid s1 ps1 ->
  (forall v t pt, foldl_start_with_parser n p sp f s ps <> Accept v t pt)
  /\ (forall v t pt, foldl_reject_incomplete_start_with_parser n p sp f s ps <> Accept v t pt)
  /\ (rejects p s1 ps1 -> (0 < n)%nat -> foldl_start_with_parser n p sp f s ps = Illformed).
Proof.
  intros n p sp f s ps s1 ps1 E. splits.
  - intros v t pt H. apply foldl_swp_accept in H as (v0 & s2 & ps2 & rs & m & pe & E' & N & _).
    rewrite E in E'. injection E' as <- _ _. destruct (N eq_refl).
  - intros v t pt H. apply foldl_ri_swp_accept in H as (v0 & s2 & ps2 & rs & m & E' & N & _).
    rewrite E in E'. injection E' as <- _ _. destruct (N eq_refl).
  - intros (m & pe & R) L. unfold foldl_start_with_parser. rewrite E. cbn [type_of].
    destruct n as [|n]; [inversion L|]. cbn [foldl]. rewrite R. reflexivity.
Qed.
Print Assumptions C10_void_state.

(** So an optional sign, whose default is [void], cannot start a left fold; it
    can start a right one. *)
Theorem C10_void_refuted : exists p sp f s,
  accepts sp s start /\ rejects p s start
  /\ (forall n, (0 < n)%nat -> foldl_start_with_parser n p sp f s start = Illformed)
  /\ (forall n, (0 < n)%nat -> foldl_reject_incomplete_start_with_parser n p sp f s start = Illformed)
  /\ (forall n, (0 < n)%nat -> accepts (foldr_start_with_parser n p sp f) s start).
Proof.
  exists digit_val, (optional (lit_c 45) VVoid), pair_op, (text "x").
  assert (A : accepts (optional (lit_c 45) VVoid) (text "x") start) by (exists VVoid, (text "x"), start; reflexivity).
  assert (R : rejects digit_val (text "x") start) by (exists digit_expected, start; reflexivity).
  splits; auto.
  - intros n L. apply (proj2 (proj2 (C10_void_state n digit_val (optional (lit_c 45) VVoid) pair_op (text "x") start
      (text "x") start eq_refl))); auto.
  - intros [|n] L; [inversion L|reflexivity].
  - intros [|n] L; [inversion L|]. exists VVoid, (text "x"), start. reflexivity.
Qed.
Print Assumptions C10_void_refuted.

(** ** C11 the variants that need one element *)

Theorem C11_variants_with_one : forall cfg n p s ps,
  (forall m pe, p s ps = Reject m pe ->
     (forall st f, foldl1 n p st f s ps = Reject m pe)
     /\ (forall st f, foldr1 n p st f s ps = Reject m pe)
     /\ repeated1 n p s ps = Reject m pe
     /\ (forall st f, foldl_reject_incomplete1 n p st f s ps = Reject m pe)
     /\ (forall st f, foldr_reject_incomplete1 cfg n p st f s ps = Reject m pe)
     /\ repeated_reject_incomplete1 n p s ps = Reject m pe)
  /\ (accepts p s ps ->
     (forall st f, foldl1 n p st f s ps = foldl n p st f s ps)
     /\ (forall st f, foldr1 n p st f s ps = foldr n p st f s ps)
     /\ repeated1 n p s ps = repeated n p s ps
     /\ (forall st f, foldl_reject_incomplete1 n p st f s ps
                      = foldl_reject_incomplete n p st f s ps)
     /\ (forall st f, foldr_reject_incomplete1 cfg n p st f s ps
                      = foldr_reject_incomplete cfg n p st f s ps)
     /\ repeated_reject_incomplete1 n p s ps = repeated_reject_incomplete n p s ps).
Proof. exact ones. Qed.
Print Assumptions C11_variants_with_one.

(** In terms of the elements: at least one, and the only error is the error of
    the first application. *)
Theorem C11_foldl1_accepts : forall n p st f s ps v rem ps',
  foldl1 n p (Some st) f s ps = Accept v rem ps' <->
  exists rs m pe, rs <> [] /\ (length rs < n)%nat /\ runs p s ps rs rem ps'
    /\ p rem ps' = Reject m pe /\ lfold f rs st = Some v.
Proof. exact foldl1_accept. Qed.
Print Assumptions C11_foldl1_accepts.

Theorem C11_foldl1_rejects : forall n p st f s ps m pe,
  foldl1 n p st f s ps = Reject m pe <-> p s ps = Reject m pe.
Proof. exact foldl1_reject. Qed.
Print Assumptions C11_foldl1_rejects.

Theorem C11_foldr1_accepts : forall n p st f s ps v rem ps',
  foldr1 n p st f s ps = Accept v rem ps' <->
  exists rs m pe, rs <> [] /\ (length rs < n)%nat /\ runs p s ps rs rem ps'
    /\ p rem ps' = Reject m pe /\ rfold f rs st = Some v.
Proof. exact foldr1_accept. Qed.
Print Assumptions C11_foldr1_accepts.

Theorem C11_foldr1_rejects : forall n p st f s ps m pe,
  foldr1 n p st f s ps = Reject m pe <-> p s ps = Reject m pe.
Proof. exact foldr1_reject. Qed.
Print Assumptions C11_foldr1_rejects.

Example C11_case :
  rejects plus_digit (text "+x") start /\ accepts plus_digit (text "+1+x") start
  /\ foldl1 9 plus_digit (Some VVoid) pair_op (text "+x") start = Reject digit_expected (mkpos 1 2 43)
  /\ foldr1 9 plus_digit VVoid pair_op (text "+1+x") start
     = Accept (VTmpl 0 [VVoid; VInt 1]) (text "+x") (mkpos 1 3 49).
Proof.
  split; [exists digit_expected, (mkpos 1 2 43); vm_compute; reflexivity|].
  split; [exists (VInt 1), (text "+x"), (mkpos 1 3 49); vm_compute; reflexivity|].
  vm_compute. auto.
Qed.

(** ** C12 rejecting incomplete elements *)

(** Accepted: the application of [p] that ended the iteration failed at the
    position where it started. *)
Theorem C12_foldl_reject_incomplete_accepts : forall n p st f s ps v rem ps',
  foldl_reject_incomplete n p (Some st) f s ps = Accept v rem ps' <->
  exists rs m, (length rs < n)%nat /\ runs p s ps rs rem ps'
    /\ p rem ps' = Reject m ps' /\ lfold f rs st = Some v.
Proof. exact foldl_ri_accept. Qed.
Print Assumptions C12_foldl_reject_incomplete_accepts.

Theorem C12_foldl_reject_incomplete_rejects : forall n p st f s ps m pe,
  foldl_reject_incomplete n p (Some st) f s ps = Reject m pe <->
  exists rs s1 ps1, (length rs < n)%nat /\ runs p s ps rs s1 ps1
    /\ p s1 ps1 = Reject m pe /\ pe <> ps1 /\ lfold f (removelast rs) st <> None.
Proof. exact foldl_ri_reject. Qed.
Print Assumptions C12_foldl_reject_incomplete_rejects.

Theorem C12_foldl_reject_incomplete_illformed : forall n p st f s ps,
  foldl_reject_incomplete n p (Some st) f s ps = Illformed <->
  exists rs s1 ps1, (length rs < n)%nat /\ runs p s ps rs s1 ps1
    /\ lfold f (removelast rs) st <> None
    /\ (p s1 ps1 = Illformed
        \/ ((accepts p s1 ps1 \/ exists m, p s1 ps1 = Reject m ps1) /\ lfold f rs st = None)).
Proof. exact foldl_ri_illformed. Qed.
Print Assumptions C12_foldl_reject_incomplete_illformed.

Theorem C12_foldr_reject_incomplete_accepts : forall cfg n p st f s ps v rem ps',
  fits_sequence cfg 2 ->
  (foldr_reject_incomplete cfg n p st f s ps = Accept v rem ps' <->
   exists rs m, (length rs < n)%nat /\ runs p s ps rs rem ps'
     /\ p rem ps' = Reject m ps' /\ rfold f rs st = Some v).
Proof. exact foldr_ri_accept. Qed.
Print Assumptions C12_foldr_reject_incomplete_accepts.

Theorem C12_foldr_reject_incomplete_rejects : forall cfg n p st f s ps m pe,
  fits_sequence cfg 2 ->
  (foldr_reject_incomplete cfg n p st f s ps = Reject m pe <->
   exists rs s1 ps1, (length rs < n)%nat /\ runs p s ps rs s1 ps1
     /\ p s1 ps1 = Reject m pe /\ pe <> ps1).
Proof. exact foldr_ri_reject. Qed.
Print Assumptions C12_foldr_reject_incomplete_rejects.

Theorem C12_repeated_reject_incomplete_accepts : forall n p s ps v rem ps',
  repeated_reject_incomplete n p s ps = Accept v rem ps' <->
  exists rs m, v = VSeq rs /\ (length rs < n)%nat /\ runs p s ps rs rem ps'
    /\ p rem ps' = Reject m ps'.
Proof. exact repeated_ri_accept. Qed.
Print Assumptions C12_repeated_reject_incomplete_accepts.

Theorem C12_repeated_reject_incomplete_rejects : forall n p s ps m pe,
  repeated_reject_incomplete n p s ps = Reject m pe <->
  exists rs s1 ps1, (length rs < n)%nat /\ runs p s ps rs s1 ps1
    /\ p s1 ps1 = Reject m pe /\ pe <> ps1.
Proof. exact repeated_ri_reject. Qed.
Print Assumptions C12_repeated_reject_incomplete_rejects.

Example C12_case :
  fits_sequence (default_config Std98) 2
  /\ repeated_reject_incomplete 9 plus_digit (text "+1+2.") start
    = Accept (VSeq [VInt 1; VInt 2]) (text ".") (mkpos 1 5 50)
  /\ repeated_reject_incomplete 9 plus_digit (text "+1+x") start
    = Reject digit_expected (mkpos 1 4 43)
  /\ foldr_reject_incomplete (default_config Std98) 9 plus_digit VVoid pair_op (text "+1+x") start
    = Reject digit_expected (mkpos 1 4 43)
  /\ foldr_reject_incomplete (default_config Std98) 9 plus_digit VVoid pair_op (text "+1.") start
    = Accept (VTmpl 0 [VVoid; VInt 1]) (text ".") (mkpos 1 3 49).
Proof. split; [intros _; repeat constructor|]. vm_compute. auto. Qed.

(** ** C13 repeated *)

Theorem C13_repeated_accepts : forall n p s ps v rem ps',
  repeated n p s ps = Accept v rem ps' <->
  exists rs m pe, v = VSeq rs /\ (length rs < n)%nat /\ runs p s ps rs rem ps'
    /\ p rem ps' = Reject m pe.
Proof. exact repeated_accept. Qed.
Print Assumptions C13_repeated_accepts.

Theorem C13_repeated1_accepts : forall n p s ps v rem ps',
  repeated1 n p s ps = Accept v rem ps' <->
  exists rs m pe, v = VSeq rs /\ rs <> [] /\ (length rs < n)%nat
    /\ runs p s ps rs rem ps' /\ p rem ps' = Reject m pe.
Proof. exact repeated1_accept. Qed.
Print Assumptions C13_repeated1_accepts.

Theorem C13_repeated_illformed : forall n p s ps,
  repeated n p s ps = Illformed <->
  exists rs s1 ps1, (length rs < n)%nat /\ runs p s ps rs s1 ps1 /\ p s1 ps1 = Illformed.
Proof. exact repeated_illformed. Qed.
Print Assumptions C13_repeated_illformed.

Example C13_case :
  repeated 9 plus_digit (text "+3+1+2.") start
    = Accept (VSeq [VInt 3; VInt 1; VInt 2]) (text ".") (mkpos 1 7 50)
  /\ repeated1 9 plus_digit (text ".") start = Reject (literal_expected 43) start.
Proof. vm_compute. auto. Qed.

(** ** C14 termination *)

(** With an element parser that terminates and makes progress, the depth
    [length s + 1] is enough for every fold. *)
Theorem C14_repetition_terminates : forall cfg p,
  consuming p -> (forall s ps, p s ps <> OutOfFuel) -> fits_sequence cfg 2 ->
  forall n s ps, (length s < n)%nat ->
  (forall st f, foldl n p st f s ps <> OutOfFuel)
  /\ (forall st f, foldr n p st f s ps <> OutOfFuel)
  /\ repeated n p s ps <> OutOfFuel
  /\ (forall st f, foldl_reject_incomplete n p st f s ps <> OutOfFuel)
  /\ (forall st f, foldr_reject_incomplete cfg n p st f s ps <> OutOfFuel)
  /\ repeated_reject_incomplete n p s ps <> OutOfFuel
  /\ (forall st f, foldl1 n p st f s ps <> OutOfFuel)
  /\ (forall st f, foldr1 n p st f s ps <> OutOfFuel)
  /\ repeated1 n p s ps <> OutOfFuel.
Proof. exact folds_terminate. Qed.
Print Assumptions C14_repetition_terminates.

(** If the element parser accepts without making progress at a place that is
    reached, no depth is enough. *)
Theorem C14_repetition_diverges : forall cfg p rs s ps s1 ps1 r,
  runs p s ps rs s1 ps1 -> p s1 ps1 = Accept r s1 ps1 ->
  forall n,
  repeated n p s ps = OutOfFuel
  /\ (forall st f, foldr n p st f s ps = OutOfFuel)
  /\ (forall st f, foldr_reject_incomplete cfg n p st f s ps = OutOfFuel)
  /\ (forall st f, total_op f -> foldl n p (Some st) f s ps = OutOfFuel)
  /\ (forall st f, total_op f -> foldl_reject_incomplete n p (Some st) f s ps = OutOfFuel)
  /\ (forall st f, foldl n p st f s ps = OutOfFuel \/ foldl n p st f s ps = Illformed).
Proof. exact folds_diverge. Qed.
Print Assumptions C14_repetition_diverges.

Lemma digit_consuming : consuming digit.
Proof.
  intros s ps r s' ps' H. unfold digit, accept_when, change_error_message, one_char in H.
  destruct s as [|c s]; [discriminate|].
  destruct (is_digit (VChar c)) as [[|]|]; inversion H; subst. simpl. auto.
Qed.
Lemma digit_not_out_of_fuel : forall s ps, digit s ps <> OutOfFuel.
Proof.
  intros s ps. unfold digit, accept_when, change_error_message, one_char.
  destruct s as [|c s]; [discriminate|]. destruct (is_digit (VChar c)) as [[|]|]; discriminate.
Qed.
Example C14_case_terminates :
  consuming digit /\ (forall s ps, digit s ps <> OutOfFuel)
  /\ fits_sequence (default_config Std98) 2
  /\ repeated 3 digit (text "12") start = Accept (VSeq [VChar 49; VChar 50]) [] (mkpos 1 3 50)
  /\ repeated 2 digit (text "12") start = OutOfFuel.
Proof.
  repeat split; auto using digit_consuming, digit_not_out_of_fuel; try (vm_compute; reflexivity).
  intros _; repeat constructor.
Qed.

(** repeated<optional<digit>> on "1x" *)
Example C14_case_diverges :
  runs (optional digit VVoid) (text "1x") start [VChar 49] (text "x") (mkpos 1 2 49)
  /\ optional digit VVoid (text "x") (mkpos 1 2 49) = Accept VVoid (text "x") (mkpos 1 2 49).
Proof.
  split; [|vm_compute; reflexivity].
  econstructor; [vm_compute; reflexivity|constructor].
Qed.
