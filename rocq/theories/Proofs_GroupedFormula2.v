(** Proofs about the texts of formulas with operators that group to the left and to the
    right. *)

From Coq Require Import ZArith List Bool Lia.
From Verif Require Import Base Util Deep Spec SpecRules SpecPrecedence SpecGrouping SpecFormula
  SpecGroupedFormula Proofs_Formula2.
Import ListNotations.
Open Scope Z_scope.

(** ** The shortest text *)

Section Written.
Variable ls : list (grouping * (list char * mf2)).
Variable signs : list char.
Variable word : str -> value -> Prop.

Lemma glevel_in_nth : forall c, (exists cs f, In (cs, f) (map snd ls) /\ In c cs) ->
  exists cs f, nth_error ls (level_in (map snd ls) c) = Some (grouping_in ls c, (cs, f)) /\ In c cs.
Proof.
  intros c H. destruct (level_in_nth (map snd ls) c H) as (cs & f & N & I).
  unfold grouping_in. rewrite nth_error_map in N.
  destruct (nth_error ls (level_in (map snd ls) c)) as [(g & l)|]; [|discriminate N].
  injection N as ->. exists cs, f. auto.
Qed.

Lemma gwritten_spells : forall a, well_formed (map snd ls) signs (fun w => exists v, word w v) a ->
  forall k, grouped_spells ls signs word k a (grouped_written ls k a).
Proof.
  induction a as [w|c a IHa b IHb|c a IHa]; intros H k; cbn [grouped_written].
  - destruct H as (v & H). rewrite <- (app_nil_r w) at 2. eapply gs_word; [exact H|constructor].
  - destruct H as (C & HA & HB). destruct (glevel_in_nth c C) as (cs & f & N & I).
    set (j := level_in (map snd ls) c) in *. set (g := grouping_in ls c) in *.
    assert (K : forall i, (i <= j)%nat -> grouped_spells ls signs word i (FOp c a b)
      (grouped_written ls (left_side g j) a ++ c :: grouped_written ls (right_side g j) b)).
    { intros i L. apply (gs_op ls signs word i j g cs f c a b _ [] _); auto. }
    cbv zeta. destruct (Nat.ltb_spec j k) as [L|L]; [|apply K; exact L].
    apply (gs_brackets ls signs word k (FOp c a b) [] _ []); auto. apply K. lia.
  - destruct H as (C & HA). apply (gs_sign ls signs word k c a []); auto.
Qed.

Lemma gwritten_level : forall a k,
  (length (grouped_written ls k a) <= length (grouped_written ls 0 a) + 2)%nat.
Proof.
  intros [w|c a b|c a] k; cbn [grouped_written]; try lia.
  cbv zeta. destruct (Nat.ltb_spec (level_in (map snd ls) c) k);
    destruct (Nat.ltb_spec (level_in (map snd ls) c) 0); try lia.
  cbn [length]. rewrite app_length. cbn [length]. lia.
Qed.

Lemma gwritten_shortest : different_characters (map snd ls) ->
  forall k a s, grouped_spells ls signs word k a s ->
  (length (grouped_written ls k a) <= length s)%nat.
Proof.
  intros DC k a s H. induction H as [k w v sp Hw F|k j g cs f c a b s1 sp s2 N I K H1 IH1 F H2 IH2
    |k c a sp s I F H IH|k a sp1 s sp2 F1 H IH F2].
  - cbn [grouped_written]. rewrite app_length. lia.
  - cbn [grouped_written]. assert (N' := N). apply (map_nth_error snd) in N'.
    assert (E := level_in_is (map snd ls) DC j cs f c N' I). unfold grouping_in. rewrite E, N. cbv zeta.
    destruct (Nat.ltb_spec j k); [lia|].
    rewrite !app_length. cbn [length]. rewrite app_length. lia.
  - cbn [grouped_written length]. rewrite app_length. lia.
  - pose proof (gwritten_level a k). cbn [length]. rewrite !app_length. cbn [length]. lia.
Qed.
End Written.

(** ** One text, one formula *)

Definition free_right : mf2 := fun y r =>
  match r with VSeq [x; o] => Some (VSeq [x; o; y]) | _ => None end.
Definition gfree (ls : list (grouping * (list char * mf2))) : list (grouping * (list char * mf2)) :=
  map (fun l => (fst l, (fst (snd l), match fst l with To_right => free_right | _ => free_op end))) ls.

Lemma gspells_free : forall ls signs (word word' : str -> value -> Prop),
  (forall w v, word w v -> exists v', word' w v') ->
  forall k a s, grouped_spells ls signs word k a s -> grouped_spells (gfree ls) signs word' k a s.
Proof.
  intros ls signs word word' W k a s H.
  induction H as [k w v sp Hw F|k j g cs f c a b s1 sp s2 N I K H1 IH1 F H2 IH2
    |k c a sp s I F H IH|k a sp1 s sp2 F1 H IH F2].
  - destruct (W w v Hw) as (v' & Hw'). eapply gs_word; eauto.
  - eapply gs_op; eauto. unfold gfree. rewrite nth_error_map, N. reflexivity.
  - apply gs_sign; auto. unfold gfree. rewrite map_length. exact IH.
  - apply gs_brackets; auto.
Qed.

Lemma gworth_free : forall ls signs (word : str -> value -> Prop) k a s,
  grouped_spells ls signs word k a s -> (forall w v, word w v -> digits_word w (VSeq (map VChar w))) ->
  grouped_worth (gfree ls) signs free_sign digits_word a (as_value a).
Proof.
  intros ls signs word k a s H W.
  induction H as [k w v sp Hw F|k j g cs f c a b s1 sp s2 N I K H1 IH1 F H2 IH2
    |k c a sp s I F H IH|k a sp1 s sp2 F1 H IH F2]; cbn [as_value].
  - constructor. eauto.
  - apply nth_error_In in N.
    assert (J : In (g, (cs, match g with To_right => free_right | _ => free_op end)) (gfree ls)).
    { unfold gfree. apply in_map_iff. exists (g, (cs, f)). auto. }
    destruct g.
    + eapply (gw_left _ _ _ _ To_left cs free_op); eauto. discriminate.
    + eapply (gw_left _ _ _ _ To_left_strictly cs free_op); eauto. discriminate.
    + eapply (gw_right _ _ _ _ cs free_right); eauto.
  - eapply gw_sign; eauto; reflexivity.
  - exact IH.
Qed.
