(** Details of C14, C22 and C30. *)

From Coq Require Import ZArith List Bool Lia.
From Verif Require Import Base Util Combinators Variadic Parsers Spec Proofs_Final2 Properties_Folds
  Properties_Equivalences.
Import ListNotations.
Open Scope Z_scope.

(** ** C14: the other folds *)

(** The variants with 1 that reject incomplete elements and those that start with a
    parser terminate, too. *)
Theorem C14_other_folds_terminate : forall cfg p sp,
  consuming p -> (forall s ps, p s ps <> OutOfFuel) -> fits_sequence cfg 2 ->
  (forall s ps, sp s ps <> OutOfFuel) ->
  (forall s ps r s' ps', sp s ps = Accept r s' ps' -> (length s' <= length s)%nat) ->
  forall n s ps, (length s < n)%nat ->
  (forall st f, foldl_reject_incomplete1 n p st f s ps <> OutOfFuel)
  /\ (forall st f, foldr_reject_incomplete1 cfg n p st f s ps <> OutOfFuel)
  /\ repeated_reject_incomplete1 n p s ps <> OutOfFuel
  /\ (forall f, foldl_start_with_parser n p sp f s ps <> OutOfFuel)
  /\ (forall f, foldl_reject_incomplete_start_with_parser n p sp f s ps <> OutOfFuel)
  /\ (forall f, foldr_start_with_parser n p sp f s ps <> OutOfFuel).
Proof.
  intros cfg p sp C T Sq Tsp Csp n s ps N.
  assert (D := C14_repetition_terminates cfg p C T Sq).
  assert (A : forall st f, foldl_reject_incomplete1 n p st f s ps <> OutOfFuel).
  { intros st f. unfold foldl_reject_incomplete1. pose proof (T s ps).
    destruct (p s ps); try congruence. apply (D n s ps N). }
  split; [exact A|]. split.
  { intros st f. unfold foldr_reject_incomplete1. pose proof (T s ps).
    destruct (p s ps); try congruence. apply (D n s ps N). }
  split; [apply A|]. split; [|split].
  - intros f. unfold foldl_start_with_parser. pose proof (Tsp s ps). destruct (sp s ps) eqn:E; try congruence.
    apply (D n). apply Csp in E. lia.
  - intros f. unfold foldl_reject_incomplete_start_with_parser. pose proof (Tsp s ps).
    destruct (sp s ps) eqn:E; try congruence. apply (D n). apply Csp in E. lia.
  - intros f. clear A D. revert s ps N. induction n as [|n IH]; intros s ps N; [lia|]. simpl.
    pose proof (T s ps). destruct (p s ps) eqn:E; try congruence; try apply Tsp.
    apply C in E. match goal with |- context [foldr_start_with_parser n p sp f ?a ?b] =>
      assert (X := IH a b ltac:(lia)); destruct (foldr_start_with_parser n p sp f a b) end;
      try congruence. destruct (f _ _); discriminate.
Qed.
Print Assumptions C14_other_folds_terminate.

(** And they do not if the element accepts without making progress. *)
Theorem C14_other_folds_diverge : forall cfg p sp rs s ps s1 ps1 r,
  runs p s ps rs s1 ps1 -> p s1 ps1 = Accept r s1 ps1 ->
  forall n,
  repeated1 n p s ps = OutOfFuel
  /\ repeated_reject_incomplete n p s ps = OutOfFuel
  /\ repeated_reject_incomplete1 n p s ps = OutOfFuel
  /\ (forall st f, foldr1 n p st f s ps = OutOfFuel)
  /\ (forall st f, foldr_reject_incomplete1 cfg n p st f s ps = OutOfFuel)
  /\ (forall f, foldr_start_with_parser n p sp f s ps = OutOfFuel)
  /\ (forall st f, total_op f -> foldl1 n p (Some st) f s ps = OutOfFuel)
  /\ (forall st f, total_op f -> foldl_reject_incomplete1 n p (Some st) f s ps = OutOfFuel)
  /\ (forall f s0 ps0 r0, sp s0 ps0 = Accept r0 s ps -> r0 <> VVoid -> total_op f ->
        foldl_start_with_parser n p sp f s0 ps0 = OutOfFuel
        /\ foldl_reject_incomplete_start_with_parser n p sp f s0 ps0 = OutOfFuel).
Proof.
  intros cfg p sp rs s ps s1 ps1 r R E n.
  destruct (C14_repetition_diverges cfg p rs s ps s1 ps1 r R E n) as (A1 & A2 & A3 & A4 & A5 & _).
  assert (X : exists r0 s0 ps0, p s ps = Accept r0 s0 ps0) by (inversion R; subst; eauto).
  destruct X as (r0 & s0 & ps0 & X).
  assert (B : repeated_reject_incomplete n p s ps = OutOfFuel).
  { rewrite (C20_repeated_reject_incomplete (default_config Std11)) by (intros H; discriminate).
    assert (Q : repeated n p s ps = OutOfFuel) by exact A1.
    unfold first_of, first_of_11, nth_of_c_11_impl. simpl. rewrite Q. reflexivity. }
  assert (S1 : forall f, foldr_start_with_parser n p sp f s ps = OutOfFuel).
  { intros f. clear - R E. revert rs s ps R. induction n as [|n IH]; intros rs s ps R; [reflexivity|]. simpl.
    inversion R; subst.
    - rewrite E. rewrite (IH [] _ _ R). reflexivity.
    - match goal with H : p s ps = Accept _ _ _ |- _ => rewrite H end. erewrite IH by eassumption. reflexivity. }
  split; [unfold repeated1, foldl1; rewrite X; exact A1|].
  split; [exact B|].
  split; [unfold repeated_reject_incomplete1, foldl_reject_incomplete1; rewrite X; exact B|].
  split; [intros; unfold foldr1; rewrite X; apply A2|].
  split; [intros; unfold foldr_reject_incomplete1; rewrite X; apply A3|].
  split; [exact S1|].
  split; [intros; unfold foldl1; rewrite X; apply A4; assumption|].
  split; [intros; unfold foldl_reject_incomplete1; rewrite X; apply A5; assumption|].
  intros f s2 ps2 r2 S N T. unfold foldl_start_with_parser, foldl_reject_incomplete_start_with_parser. rewrite S.
  destruct r2; try congruence; simpl; auto.
Qed.
Print Assumptions C14_other_folds_diverge.

Example C14_other_folds_case :
  foldr_start_with_parser 4 digit (return_ (VSeq [])) front_inserter (text "12;") start
     = Accept (VSeq [VChar 49; VChar 50]) (text ";") (mkpos 1 3 50)
  /\ (forall s ps, foldr_start_with_parser (S (length s)) digit (return_ (VSeq [])) front_inserter s ps <> OutOfFuel)
  /\ forall n, repeated_reject_incomplete1 n (optional digit (VInt 0)) (text "1x") start = OutOfFuel.
Proof.
  split; [vm_compute; reflexivity|]. split.
  - intros s ps. apply (C14_other_folds_terminate (default_config Std11)); auto using digit_consuming, digit_not_out_of_fuel.
    + intros H; discriminate.
    + discriminate.
    + intros s0 ps0 r s' ps' H. inversion H. auto.
  - intros n.
    assert (R : runs (optional digit (VInt 0)) (text "1x") start [VChar 49] (text "x") (mkpos 1 2 49)).
    { econstructor; [vm_compute; reflexivity|constructor]. }
    destruct (C14_other_folds_diverge (default_config Std11) _ one_char _ _ _ _ _ (VInt 0) R eq_refl n) as (_ & _ & E & _).
    exact E.
Qed.

(** ** C22 and C30 *)

(** [return_] reads nothing, [fail] reports at the start. *)
Theorem C22_return_and_fail : forall v m s ps,
  (forall v' s' ps', return_ v s ps = Accept v' s' ps' <-> v' = v /\ s' = s /\ ps' = ps)
  /\ (forall m' pe, return_ v s ps <> Reject m' pe)
  /\ (forall v' s' ps', fail m s ps <> Accept v' s' ps')
  /\ (forall m' pe, fail m s ps = Reject m' pe <-> m' = m /\ pe = ps).
Proof.
  intros v m s ps. unfold return_, fail. split; [|split; [|split]]; intros; try discriminate.
  - split; [intros H; inversion H; auto|intros (-> & -> & ->); reflexivity].
  - split; [intros H; inversion H; auto|intros (-> & ->); reflexivity].
Qed.
Print Assumptions C22_return_and_fail.

(** An error transformer decides about errors, and about nothing else. *)
Theorem C30_transform_error_rejects : forall p f s ps,
  (forall m pe, transform_error p f s ps = Reject m pe <->
     exists m0 pe0, p s ps = Reject m0 pe0 /\ f m0 pe0 = Reject m pe)
  /\ (transform_error p f s ps = Illformed <->
     p s ps = Illformed \/ exists m0 pe0, p s ps = Reject m0 pe0 /\ f m0 pe0 = Illformed).
Proof.
  intros p f s ps. unfold transform_error. destruct (p s ps) as [v t q|m0 q| |] eqn:E.
  all: split; [intros m pe|]; split; intros H; try discriminate; auto.
  all: repeat match goal with
       | X : exists _, _ |- _ => destruct X
       | X : _ /\ _ |- _ => destruct X
       | X : _ \/ _ |- _ => destruct X
       end; try congruence.
  - exists m0, q. auto.
  - right. exists m0, q. auto.
Qed.
Print Assumptions C30_transform_error_rejects.

(** And about the message only. *)
Theorem C30_transform_error_message_illformed : forall p f s ps,
  transform_error_message p f s ps = Illformed <->
  p s ps = Illformed \/ exists m pe, p s ps = Reject m pe /\ f m = None.
Proof.
  intros p f s ps. unfold transform_error_message. destruct (p s ps) as [v t q|m q| |] eqn:E; split; intros H;
    try discriminate; auto.
  all: repeat match goal with
       | X : exists _, _ |- _ => destruct X
       | X : _ /\ _ |- _ => destruct X
       | X : _ \/ _ |- _ => destruct X
       end; try congruence.
  - destruct (f m) eqn:F; [discriminate|]. right. exists m, q. auto.
  - match goal with X : Reject _ _ = Reject _ _ |- _ => inversion X; subst end.
    match goal with X : f _ = None |- _ => rewrite X end. reflexivity.
Qed.
Print Assumptions C30_transform_error_message_illformed.

Example C30_transform_error_case :
  transform_error digit (fun m q => Reject (UserMsg 3) (next_char q 0)) (text "x") start
    = Reject (UserMsg 3) (mkpos 1 2 0)
  /\ transform_error digit (fun m q => Accept (VInt 0) [] q) (text "x") start = Accept (VInt 0) [] start.
Proof. split; vm_compute; reflexivity. Qed.
