(** Proofs about the parsers built by grammars (C40, C41). *)

From Coq Require Import ZArith List Bool Lia.
From Verif Require Import Base Util Combinators Variadic Parsers Deep Grammar Spec SpecDeep SpecTerm
  SpecType SpecGrammar Proofs_Pos Proofs_Fold Proofs_Variadic Proofs_Parsers Proofs_Parsers2
  Proofs_Deep Proofs_Final1 Proofs_Final2 Proofs_Final3 Proofs_Final5 Proofs_Term Proofs_Type
  Properties_Deep Properties_Term Properties_Type Proofs_Grammar.
Import ListNotations.
Open Scope Z_scope.

(** ** One step of [instantiate] *)

Lemma instantiate_eq : forall g n e, instantiate g n e =
    match e with
    | GChar c => Ok (PLitC c)
    | GName name =>
        match lookup name (g_rules g) with
        | None => Ill
        | Some d =>
            match
              match d with
              | Native p => Ok p
              | Parsed e' =>
                  match n with
                  | O => Deep
                  | S n' => instantiate g n' e'
                  end
              end
            with
            | Ok p =>
                match lookup name (g_actions g) with
                | None => Ok p
                | Some f => Ok (PTransform p f)
                end
            | o => o
            end
        end
    | GStar a => match instantiate g n a with Ok p => Ok (PRepeated p) | o => o end
    | GPlus a => match instantiate g n a with Ok p => Ok (PRepeated1 p) | o => o end
    | GSeq a b =>
        match instantiate g n a with
        | Ok p => match instantiate g n b with Ok q => Ok (PSequence [p; q]) | o => o end
        | o => o
        end
    | GSel a b =>
        match instantiate g n a with
        | Ok p => match instantiate g n b with Ok q => Ok (POneOf [p; q]) | o => o end
        | o => o
        end
    end.
Proof. intros g n e. destruct n; destruct e; reflexivity. Qed.

(** What a successful instantiation looks like. *)
Inductive built (g : grammar) : nat -> gexpr -> pexpr -> Prop :=
| bt_char : forall n c, built g n (GChar c) (PLitC c)
| bt_rule : forall n x e p, lookup x (g_rules g) = Some (Parsed e) -> built g n e p ->
    built g (S n) (GName x)
      (match lookup x (g_actions g) with None => p | Some f => PTransform p f end)
| bt_import : forall n x p, lookup x (g_rules g) = Some (Native p) ->
    built g n (GName x)
      (match lookup x (g_actions g) with None => p | Some f => PTransform p f end)
| bt_star : forall n a p, built g n a p -> built g n (GStar a) (PRepeated p)
| bt_plus : forall n a p, built g n a p -> built g n (GPlus a) (PRepeated1 p)
| bt_seq : forall n a b p q, built g n a p -> built g n b q -> built g n (GSeq a b) (PSequence [p; q])
| bt_sel : forall n a b p q, built g n a p -> built g n b q -> built g n (GSel a b) (POneOf [p; q]).

Lemma instantiate_built : forall g n e p, instantiate g n e = Ok p -> built g n e p.
Proof.
  intros g. induction n as [n IHn] using lt_wf_ind.
  induction e as [c | x | a IHa | a IHa | a IHa b IHb | a IHa b IHb]; intros p H;
    rewrite instantiate_eq in H.
  - inversion H. constructor.
  - destruct (lookup x (g_rules g)) as [[e|q]|] eqn:L; [| |discriminate].
    + destruct n as [|n]; [discriminate|].
      destruct (instantiate g n e) as [q | |] eqn:E; try discriminate.
      assert (B : built g n e q) by (apply IHn; auto).
      replace p with (match lookup x (g_actions g) with None => q | Some f => PTransform q f end)
        by (destruct (lookup x (g_actions g)); inversion H; auto).
      econstructor; eauto.
    + replace p with (match lookup x (g_actions g) with None => q | Some f => PTransform q f end)
        by (destruct (lookup x (g_actions g)); inversion H; auto).
      econstructor; eauto.
  - destruct (instantiate g n a); inversion H. constructor; auto.
  - destruct (instantiate g n a); inversion H. constructor; auto.
  - destruct (instantiate g n a); try discriminate. destruct (instantiate g n b); inversion H.
    constructor; auto.
  - destruct (instantiate g n a); try discriminate. destruct (instantiate g n b); inversion H.
    constructor; auto.
Qed.

Lemma built_instantiate : forall g n e p, built g n e p ->
  forall m, (n <= m)%nat -> instantiate g m e = Ok p.
Proof.
  intros g n e p H. induction H; intros m L; rewrite instantiate_eq; auto.
  - destruct m as [|m]; [lia|]. rewrite H, IHbuilt by lia. destruct (lookup x (g_actions g)); auto.
  - rewrite H. destruct (lookup x (g_actions g)); auto.
  - rewrite IHbuilt; auto.
  - rewrite IHbuilt; auto.
  - rewrite IHbuilt1, IHbuilt2; auto.
  - rewrite IHbuilt1, IHbuilt2; auto.
Qed.

(** ** Parsers and parsing expressions (C40) *)

Section Peg.

Variable cfg : config.
Variable env : program.
Variable g : grammar.
Hypothesis fits_g : grammar_fits cfg.

Notation PEG := (peg (defs_of cfg env g) (acts_of g)).
Notation PEGS := (peg_many (defs_of cfg env g) (acts_of g)).

(** The outcome [o] agrees with the verdict [r]. *)
Definition agrees (o : outcome) (r : verdict_at) : Prop :=
  match r with
  | Match v rem ps' => o = Accept v rem ps'
  | NoMatch => exists m pe, o = Reject m pe
  end.

Definition follows (e : gexpr) (p : pfun) : Prop :=
  forall s ps r, agrees (p s ps) r -> PEG e s ps r.

Lemma sequence_2 : forall p q s ps, sequence cfg [p; q] s ps =
  match p s ps with
  | Accept v1 s1 ps1 =>
      match q s1 ps1 with Accept v2 s2 ps2 => Accept (VSeq [v1; v2]) s2 ps2 | o => o end
  | o => o
  end.
Proof.
  intros p q s ps. rewrite sequence_cfg; [| apply (fs cfg fits_g); simpl; lia | discriminate].
  cbn [sequence_11]. unfold transform, return_.
  destruct (p s ps) as [v1 s1 ps1 | | | ]; auto.
  destruct (q s1 ps1) as [v2 s2 ps2 | | | ]; auto.
Qed.

Lemma runs_many : forall e p, follows e p -> forall rs s ps rem ps', runs p s ps rs rem ps' ->
  rejects p rem ps' -> PEGS e s ps rs rem ps'.
Proof.
  intros e p F rs. induction rs as [|r rs IH]; intros s ps rem ps' R J.
  - inversion R; subst. constructor. apply F. exact J.
  - apply runs_cons_inv in R as (s1 & ps1 & E & R). econstructor.
    + apply F. exact E.
    + eauto.
Qed.

Lemma act_agrees : forall act m p s ps r',
  agrees (eval cfg env m (match act with None => p | Some f => PTransform p f end) s ps) r' ->
  exists r, agrees (eval cfg env m p s ps) r /\ acted act r r'.
Proof.
  intros [f|] m p s ps r' A.
  - rewrite eval_eq in A. unfold transform in A.
    destruct (eval cfg env m p s ps) as [v s1 ps1 | k pe | | ] eqn:E.
    + destruct (f v) as [w|] eqn:F; destruct r' as [w' rem ps'|]; simpl in A;
        try discriminate; try (destruct A as (? & ? & A); discriminate).
      inversion A; subst. exists (Match v rem ps'). split; [reflexivity|]. econstructor; eauto.
    + destruct r' as [w' rem ps'|]; simpl in A; [discriminate|].
      exists NoMatch. split; [exists k, pe; auto | constructor].
    + destruct r' as [w' rem ps'|]; simpl in A; [|destruct A as (? & ? & A)]; discriminate.
    + destruct r' as [w' rem ps'|]; simpl in A; [|destruct A as (? & ? & A)]; discriminate.
  - exists r'. split; auto. destruct r'; constructor; auto.
Qed.

Lemma lit_eval : forall m c, eval cfg env m (PLitC c) = lit_c c.
Proof. destruct m; reflexivity. Qed.
Lemma repeated_eval : forall m p, eval cfg env m (PRepeated p) = repeated m (eval cfg env m p).
Proof. destruct m; reflexivity. Qed.
Lemma repeated1_eval : forall m p, eval cfg env m (PRepeated1 p) = repeated1 m (eval cfg env m p).
Proof. destruct m; reflexivity. Qed.

Lemma repeated1_reject : forall n p s ps m pe, repeated1 n p s ps = Reject m pe -> p s ps = Reject m pe.
Proof.
  intros n p s ps m pe H. unfold repeated1, foldl1 in H.
  destruct (p s ps) as [v s1 ps1 | | | ] eqn:E; auto; try discriminate.
  apply foldl_not_reject in H as [].
Qed.

Lemma built_follows : forall n e p, built g n e p -> forall m, follows e (eval cfg env m p).
Proof.
  intros n e p H. induction H; intros m s ps r A.
  - rewrite lit_eval in A. destruct r as [v rem ps'|].
    + apply lit_accept in A as (-> & -> & W); auto. constructor; auto.
    + constructor. destruct s as [|d s]; simpl; auto. intros ->. destruct A as (k & pe & A).
      assert (E : lit_c c (c :: s) ps = Accept (VChar c) s (adv ps [c]))
        by (apply lit_accept; auto; repeat split; auto; apply walk_adv).
      rewrite E in A. discriminate.
  - apply act_agrees in A as (r0 & A & B). eapply pg_rule; eauto.
    + unfold defs_of. rewrite H. reflexivity.
    + eapply IHbuilt; eauto.
  - apply act_agrees in A as (r0 & A & B). eapply pg_import; eauto.
    + unfold defs_of. rewrite H. reflexivity.
    + exists m. exact A.
  - rewrite repeated_eval in A. destruct r as [v rem ps'|].
    + apply repeated_accept in A as (rs & k & pe & -> & _ & R & J). apply pg_star.
      eapply runs_many; eauto. do 2 eexists; eauto.
    + destruct A as (k & pe & A). apply foldl_not_reject in A as [].
  - rewrite repeated1_eval in A. destruct r as [v rem ps'|].
    + apply repeated1_accept in A as (rs & k & pe & -> & Ne & _ & R & J).
      destruct rs as [|v rs]; [congruence|]. apply pg_plus.
      eapply runs_many; eauto. do 2 eexists; eauto.
    + destruct A as (k & pe & A). apply repeated1_reject in A. apply pg_plus_no.
      apply (IHbuilt m). do 2 eexists; eauto.
  - rewrite eval_eq in A. cbn [map] in A. rewrite sequence_2 in A.
    destruct (eval cfg env m p s ps) as [v1 s1 ps1 | k pe | | ] eqn:E1.
    + destruct (eval cfg env m q s1 ps1) as [v2 s2 ps2 | k pe | | ] eqn:E2;
        destruct r as [v rem ps'|]; simpl in A; try discriminate;
        try (destruct A as (? & ? & A); discriminate).
      * inversion A; subst. eapply pg_seq; [apply (IHbuilt1 m); exact E1 | apply (IHbuilt2 m); exact E2].
      * eapply pg_seq_no2; [apply (IHbuilt1 m); exact E1 | apply (IHbuilt2 m); do 2 eexists; exact E2].
    + destruct r as [v rem ps'|]; simpl in A; [discriminate|].
      apply pg_seq_no1. apply (IHbuilt1 m). do 2 eexists; exact E1.
    + destruct r as [v rem ps'|]; simpl in A; [|destruct A as (? & ? & A)]; discriminate.
    + destruct r as [v rem ps'|]; simpl in A; [|destruct A as (? & ? & A)]; discriminate.
  - rewrite eval_eq in A. cbn [map] in A.
    assert (Fi : fits_one_of cfg (length [eval cfg env m p; eval cfg env m q]))
      by (apply (fo cfg fits_g); simpl; lia).
    destruct r as [v rem ps'|].
    + apply one_of_cfg_accept in A; auto. rewrite !first_accepting_cons in A.
      destruct A as [(A & _)|(R & [(A & _)|(_ & A)])].
      * apply pg_sel_first. apply (IHbuilt1 m). exact A.
      * apply pg_sel_second; [apply (IHbuilt1 m); exact R | apply (IHbuilt2 m); exact A].
      * destruct (first_accepting_nil _ _ _ A).
    + assert (R := proj1 (one_of_cfg_all_reject cfg _ s ps Fi) A).
      apply pg_sel_second; [apply (IHbuilt1 m) | apply (IHbuilt2 m)]; apply R; simpl; auto.
Qed.

(** Parsing expressions give at most one verdict. *)
Scheme peg_ind2 := Minimality for peg Sort Prop
  with peg_many_ind2 := Minimality for peg_many Sort Prop.

Lemma agrees_unique : forall o r1 r2, agrees o r1 -> agrees o r2 -> r1 = r2.
Proof.
  intros o [v1 rem1 ps1|] [v2 rem2 ps2|]; simpl; intros A B.
  - congruence.
  - destruct B as (? & ? & B). congruence.
  - destruct A as (? & ? & A). congruence.
  - auto.
Qed.

Lemma behaves_unique : forall p s ps r1 r2, behaves cfg env p s ps r1 -> behaves cfg env p s ps r2 ->
  r1 = r2.
Proof.
  intros p s ps r1 r2 (n1 & A) (n2 & B). change (agrees (eval cfg env n1 p s ps) r1) in A.
  change (agrees (eval cfg env n2 p s ps) r2) in B.
  assert (N : forall n r, agrees (eval cfg env n p s ps) r -> eval cfg env n p s ps <> OutOfFuel).
  { intros n [v rem ps'|]; simpl; [congruence|]. intros (? & ? & E). congruence. }
  rewrite (C36_outcome_unique cfg env p n2 n1 s ps) in B by eauto.
  eapply agrees_unique; eauto.
Qed.

Lemma acted_unique : forall act r r1 r2, acted act r r1 -> acted act r r2 -> r1 = r2.
Proof. intros act r r1 r2 A B. inversion A; subst; inversion B; subst; congruence. Qed.

Lemma import_unique : forall x b s ps r1 r2, defs_of cfg env g x = Some (MImport b) ->
  b s ps r1 -> b s ps r2 -> r1 = r2.
Proof.
  intros x b s ps r1 r2 D A B. unfold defs_of in D.
  destruct (lookup x (g_rules g)) as [[e|p]|]; inversion D; subst. eapply behaves_unique; eauto.
Qed.

Ltac use_unique :=
  repeat match goal with
  | IH : (forall r2, peg _ _ ?a ?s ?ps r2 -> ?r = r2), P : peg _ _ ?a ?s ?ps _ |- _ =>
      apply IH in P; try discriminate P; try (injection P; intros; subst); try subst; clear P
  | IH : (forall vs2 rem2 ps2, peg_many _ _ ?a ?s ?ps vs2 rem2 ps2 -> _),
    P : peg_many _ _ ?a ?s ?ps _ _ _ |- _ =>
      apply IH in P; destruct P as (? & ? & ?); subst
  end.

Lemma peg_unique : forall e s ps r1, PEG e s ps r1 -> forall r2, PEG e s ps r2 -> r1 = r2.
Proof.
  apply (peg_ind2 (defs_of cfg env g) (acts_of g)
    (fun e s ps r1 => forall r2, PEG e s ps r2 -> r1 = r2)
    (fun e s ps vs rem ps' => forall vs2 rem2 ps2, PEGS e s ps vs2 rem2 ps2 ->
       vs = vs2 /\ rem = rem2 /\ ps' = ps2)).
  - intros c s ps ps' W r2 H. inversion H; subst.
    + f_equal. eapply walk_functional; eauto.
    + simpl in *. congruence.
  - intros c s ps N r2 H. inversion H; subst; auto. simpl in N. congruence.
  - intros a b s ps v1 s1 ps1 v2 s2 ps2 _ IH1 _ IH2 r2 H. inversion H; subst; use_unique; auto.
  - intros a b s ps _ IH1 r2 H. inversion H; subst; use_unique; auto.
  - intros a b s ps v1 s1 ps1 _ IH1 _ IH2 r2 H. inversion H; subst; use_unique; auto.
  - intros a b s ps v s1 ps1 _ IH1 r2 H. inversion H; subst; use_unique; auto.
  - intros a b s ps r _ IH1 _ IH2 r2 H. inversion H; subst; use_unique; auto.
  - intros a s ps vs rem ps' _ IH r2 H. inversion H; subst; use_unique; auto.
  - intros a s ps v vs rem ps' _ IH r2 H. inversion H; subst.
    + use_unique; congruence.
    + destruct (IH [] s ps) as (E & _); [constructor; auto | discriminate].
  - intros a s ps _ IH r2 H. inversion H; subst; auto.
    match goal with P : peg_many _ _ _ _ _ (_ :: _) _ _ |- _ => inversion P; subst end.
    use_unique.
  - intros x e s ps r r' D _ IH A r2 H. inversion H; subst; [|congruence].
    match goal with P : defs_of _ _ _ _ = _ |- _ => rewrite D in P; inversion P; subst end.
    use_unique. eapply acted_unique; eauto.
  - intros x b s ps r r' D B A r2 H. inversion H; subst; [congruence|].
    match goal with P : defs_of _ _ _ _ = Some (MImport b0) |- _ => rewrite D in P; inversion P; subst end.
    match goal with P : b0 s ps ?q |- _ => rewrite (import_unique _ _ _ _ _ _ D B P) in A end.
    eapply acted_unique; eauto.
  - intros a s ps _ IH vs2 rem2 ps2 H. inversion H; subst; auto. use_unique.
  - intros a s ps v s1 ps1 vs s2 ps2 _ IH1 _ IH2 vs2 rem2 ps2' H. inversion H; subst; use_unique; auto.
Qed.

End Peg.

(** ** Which grammars can be instantiated (C41) *)

Section Instantiate.

Variable cfg : config.
Variable env : program.
Variable g : grammar.

Notation defs := (defs_of cfg env g).

Lemma defs_rule : forall x e, defs x = Some (MRule e) <-> lookup x (g_rules g) = Some (Parsed e).
Proof.
  intros x e. unfold defs_of. destruct (lookup x (g_rules g)) as [[e'|p]|]; split; intros H;
    inversion H; auto.
Qed.

Lemma defs_none : forall x, defs x = None <-> lookup x (g_rules g) = None.
Proof.
  intros x. unfold defs_of. destruct (lookup x (g_rules g)) as [[e'|p]|]; split; intros H;
    inversion H; auto.
Qed.

Lemma built_mentions : forall n e p, built g n e p -> forall x, mentions e x ->
  exists q, built g n (GName x) q.
Proof.
  intros n e p H. induction H; simpl; intros y M.
  - contradiction.
  - subst. eexists. eapply bt_rule; eauto.
  - subst. eexists. eapply bt_import; eauto.
  - auto.
  - auto.
  - destruct M; auto.
  - destruct M; auto.
Qed.

Lemma built_refers : forall n x y p, built g n (GName x) p -> refers defs x y ->
  exists m q, (m < n)%nat /\ built g m (GName y) q.
Proof.
  intros n x y p H (e & D & M). apply defs_rule in D. inversion H; subst.
  - rewrite D in H1. inversion H1; subst. 
    match goal with B : built g _ _ _ |- _ => destruct (built_mentions _ _ _ B y M) as (q & Q) end.
    eexists _, q. split; [|exact Q]. lia.
  - congruence.
Qed.

Lemma built_reaches : forall x y, reaches_name defs x y -> forall n p, built g n (GName x) p ->
  exists m q, (m <= n)%nat /\ built g m (GName y) q.
Proof.
  intros x y R. induction R as [x | x y z S R IH]; intros n p B.
  - exists n, p. auto.
  - destruct (built_refers _ _ _ _ B S) as (m & q & L & B').
    destruct (IH _ _ B') as (m' & q' & L' & B''). exists m', q'. split; [lia | auto].
Qed.

Lemma built_defined : forall n x p, built g n (GName x) p -> defs x <> None.
Proof. intros n x p B. rewrite defs_none. inversion B; subst; congruence. Qed.

Lemma built_not_recursive : forall n x p, built g n (GName x) p -> ~ recursive defs x.
Proof.
  induction n as [n IH] using lt_wf_ind. intros x p B (y & S & R).
  destruct (built_refers _ _ _ _ B S) as (m & q & L & B').
  destruct (built_reaches _ _ R _ _ B') as (m' & q' & L' & B'').
  apply (IH m' ltac:(lia) x q' B''). exists y. auto.
Qed.

(** A chain of rules. *)
Inductive path : list str -> Prop :=
| path_one : forall x e, defs x = Some (MRule e) -> path [x]
| path_more : forall x y l, refers defs x y -> path (y :: l) -> path (x :: y :: l).

Lemma deep_path : forall n e, instantiate g n e = Deep ->
  exists x l, mentions e x /\ path (x :: l) /\ length l = n.
Proof.
  induction n as [n IHn] using lt_wf_ind.
  induction e as [c | x | a IHa | a IHa | a IHa b IHb | a IHa b IHb]; intros H;
    rewrite instantiate_eq in H.
  - discriminate.
  - destruct (lookup x (g_rules g)) as [[e|q]|] eqn:L; [| |discriminate].
    + assert (D := proj2 (defs_rule x e) L). destruct n as [|n].
      * exists x, []. splits; simpl; auto. econstructor; eauto.
      * destruct (instantiate g n e) as [q | |] eqn:E; try discriminate.
        { destruct (lookup x (g_actions g)); discriminate. }
        apply IHn in E as (y & l & M & P & Le); [|lia].
        exists x, (y :: l). splits; simpl; auto. constructor; auto. exists e; auto.
    + destruct (lookup x (g_actions g)); discriminate.
  - destruct (instantiate g n a); try discriminate. auto.
  - destruct (instantiate g n a); try discriminate. auto.
  - simpl. destruct (instantiate g n a).
    + destruct (instantiate g n b); try discriminate.
      destruct (IHb eq_refl) as (x & l & M & P & Le). exists x, l. auto.
    + discriminate.
    + destruct (IHa eq_refl) as (x & l & M & P & Le). exists x, l. auto.
  - simpl. destruct (instantiate g n a).
    + destruct (instantiate g n b); try discriminate.
      destruct (IHb eq_refl) as (x & l & M & P & Le). exists x, l. auto.
    + discriminate.
    + destruct (IHa eq_refl) as (x & l & M & P & Le). exists x, l. auto.
Qed.

Lemma ill_undefined : forall n e, instantiate g n e = Ill ->
  exists x y, mentions e x /\ reaches_name defs x y /\ defs y = None.
Proof.
  induction n as [n IHn] using lt_wf_ind.
  induction e as [c | x | a IHa | a IHa | a IHa b IHb | a IHa b IHb]; intros H;
    rewrite instantiate_eq in H.
  - discriminate.
  - destruct (lookup x (g_rules g)) as [[e|q]|] eqn:L.
    + assert (D := proj2 (defs_rule x e) L). destruct n as [|n]; [discriminate|].
      destruct (instantiate g n e) as [q | |] eqn:E; try discriminate.
      { destruct (lookup x (g_actions g)); discriminate. }
      apply IHn in E as (y & z & M & R & U); [|lia].
      exists x, z. splits; simpl; auto. econstructor; eauto. exists e; auto.
    + destruct (lookup x (g_actions g)); discriminate.
    + exists x, x. splits; simpl; auto; [constructor | apply defs_none; auto].
  - destruct (instantiate g n a); try discriminate. auto.
  - destruct (instantiate g n a); try discriminate. auto.
  - simpl. destruct (instantiate g n a).
    + destruct (instantiate g n b); try discriminate.
      destruct (IHb eq_refl) as (x & y & M & P). exists x, y. tauto.
    + destruct (IHa eq_refl) as (x & y & M & P). exists x, y. tauto.
    + discriminate.
  - simpl. destruct (instantiate g n a).
    + destruct (instantiate g n b); try discriminate.
      destruct (IHb eq_refl) as (x & y & M & P). exists x, y. tauto.
    + destruct (IHa eq_refl) as (x & y & M & P). exists x, y. tauto.
    + discriminate.
Qed.

Lemma lookup_in : forall A (l : list (str * A)) x a, lookup x l = Some a -> In x (map fst l).
Proof.
  intros A l x a. induction l as [|(k, b) l IH]; simpl; [discriminate|].
  destruct (list_eq_dec Z.eq_dec x k) as [->|N]; auto.
Qed.

Lemma path_keys : forall l, path l -> incl l (map fst (g_rules g)).
Proof.
  intros l P. induction P; intros z I.
  - destruct I as [<-|[]]. apply defs_rule in H. eapply lookup_in; eauto.
  - destruct I as [<-|I]; auto. destruct H as (e & D & _). apply defs_rule in D. eapply lookup_in; eauto.
Qed.

Lemma path_reaches : forall l x, path (x :: l) -> forall z, In z (x :: l) -> reaches_name defs x z.
Proof.
  induction l as [|y l IH]; intros x P z I.
  - destruct I as [<-|[]]. constructor.
  - inversion P; subst. destruct I as [<-|I]; [constructor|]. econstructor; eauto.
Qed.

Lemma dup_or_not : forall l : list str, NoDup l \/ exists l1 x l2, l = l1 ++ x :: l2 /\ In x l2.
Proof.
  induction l as [|x l [IH|(l1 & y & l2 & -> & I)]].
  - left; constructor.
  - destruct (in_dec (list_eq_dec Z.eq_dec) x l) as [I|N].
    + right. exists [], x, l. auto.
    + left. constructor; auto.
  - right. exists (x :: l1), y, l2. auto.
Qed.

Lemma path_app : forall l1 x l2, path (l1 ++ x :: l2) -> path (x :: l2).
Proof.
  induction l1 as [|a l1 IH]; simpl; intros x l2 P; auto.
  destruct l1 as [|b l1]; simpl in *; inversion P; subst; auto.
Qed.

Lemma long_path_recursive : forall x l, path (x :: l) -> (length (g_rules g) <= length l)%nat ->
  exists y, reaches_name defs x y /\ recursive defs y.
Proof.
  intros x l P L. destruct (dup_or_not (x :: l)) as [N|(l1 & y & l2 & E & I)].
  - exfalso. assert (Q := NoDup_incl_length N (path_keys _ P)). rewrite map_length in Q. simpl in Q. lia.
  - exists y. split.
    + eapply path_reaches; eauto. rewrite E. apply in_or_app. simpl; auto.
    + rewrite E in P. apply path_app in P. destruct l2 as [|z l2]; [destruct I|].
      inversion P; subst. exists z. split; auto. eapply path_reaches; eauto.
Qed.

Lemma acyclic_not_deep : forall x n, (length (g_rules g) <= n)%nat ->
  all_reached defs x (fun y => ~ recursive defs y) -> instantiate g n (GName x) <> Deep.
Proof.
  intros x n L A D. apply deep_path in D as (y & l & M & P & Le). simpl in M. subst y.
  destruct (long_path_recursive x l P) as (y & R & Rc); [lia|]. apply (A y R Rc).
Qed.

Lemma defined_not_ill : forall x n, all_reached defs x (fun y => defs y <> None) ->
  instantiate g n (GName x) <> Ill.
Proof.
  intros x n A D. apply ill_undefined in D as (y & z & M & R & U). simpl in M. subst y. apply (A z R U).
Qed.

Lemma ok_defined : forall x n p, instantiate g n (GName x) = Ok p ->
  all_reached defs x (fun y => defs y <> None /\ ~ recursive defs y).
Proof.
  intros x n p E y R. apply instantiate_built in E.
  destruct (built_reaches _ _ R _ _ E) as (m & q & _ & B). split.
  - eapply built_defined; eauto.
  - eapply built_not_recursive; eauto.
Qed.

End Instantiate.

(** ** Which grammar parsers give a verdict (C40) *)

Section Verdict.

Variable cfg : config.
Variable env : program.
Variable g : grammar.
Variables (nul : nat -> bool) (rank : nat -> nat) (R K r : nat).
Variable quiet : str -> Prop.
Hypothesis fits_g : grammar_fits cfg.

Notation defs := (defs_of cfg env g).

(** What is required of the definition of [x]. *)
Definition definition_ok (x : str) : Prop :=
  match lookup x (g_rules g) with
  | Some (Parsed e) => loops_ok defs quiet e
  | Some (Native p) => every (loops_read nul rank R K) p /\ left_ok nul rank r p = true
      /\ (nullable nul p = true -> quiet x)
  | None => True
  end.

Lemma lit_loops : forall c, every (loops_read nul rank R K) (PLitC c).
Proof. intros c. every_solve. Qed.

Lemma built_checked : forall n e p, built g n e p -> loops_ok defs quiet e ->
  (forall x, mentions e x -> all_reached defs x definition_ok) ->
  every (loops_read nul rank R K) p /\ left_ok nul rank r p = true
  /\ (nullable nul p = true -> may_be_empty defs quiet e).
Proof.
  intros n e p B. induction B; intros Lo Al.
  - splits; [apply lit_loops | reflexivity | discriminate].
  - assert (X := Al x eq_refl x (rn_here _ x)). unfold definition_ok in X. rewrite H in X.
    destruct IHB as (E & L & N); auto.
    { intros y M z Rz. apply (Al x eq_refl). econstructor; [|exact Rz].
      exists e. split; auto. apply defs_rule. auto. }
    assert (N' : nullable nul p = true -> may_be_empty defs quiet (GName x)).
    { intros Np. eapply me_rule; [apply defs_rule; eauto | auto]. }
    destruct (lookup x (g_actions g)); splits; auto.
    constructor; [exact I|]. simpl. intros c [<-|[]]. auto.
  - assert (X := Al x eq_refl x (rn_here _ x)). unfold definition_ok in X. rewrite H in X.
    destruct X as (E & L & Q).
    assert (N' : nullable nul p = true -> may_be_empty defs quiet (GName x)).
    { intros Np. eapply me_import; eauto. unfold defs_of. rewrite H. reflexivity. }
    destruct (lookup x (g_actions g)); splits; auto.
    constructor; [exact I|]. simpl. intros c [<-|[]]. auto.
  - destruct Lo as (Ne & Lo). destruct (IHB Lo Al) as (E & L & N). splits; auto.
    + constructor; simpl.
      * destruct (nullable nul p) eqn:Np; auto. destruct (Ne (N eq_refl)).
      * intros c [<-|[]]. auto.
    + intros _. constructor.
  - destruct Lo as (Ne & Lo). destruct (IHB Lo Al) as (E & L & N). splits; auto.
    + constructor; simpl.
      * destruct (nullable nul p) eqn:Np; auto. destruct (Ne (N eq_refl)).
      * intros c [<-|[]]. auto.
    + simpl. intros Np. constructor; auto.
  - destruct Lo as (Lo1 & Lo2).
    destruct (IHB1 Lo1) as (E1 & L1 & N1); [intros y M; apply Al; simpl; auto|].
    destruct (IHB2 Lo2) as (E2 & L2 & N2); [intros y M; apply Al; simpl; auto|].
    splits.
    + constructor; simpl; auto. intros c [<-|[<-|[]]]; auto.
    + simpl. rewrite L1, L2. destruct (nullable nul p), (nullable nul q); auto.
    + simpl. rewrite andb_true_r. intros H. apply andb_true_iff in H as (H1 & H2). apply me_seq; auto.
  - destruct Lo as (Lo1 & Lo2).
    destruct (IHB1 Lo1) as (E1 & L1 & N1); [intros y M; apply Al; simpl; auto|].
    destruct (IHB2 Lo2) as (E2 & L2 & N2); [intros y M; apply Al; simpl; auto|].
    splits.
    + constructor; simpl; auto. intros c [<-|[<-|[]]]; auto.
    + simpl. rewrite L1, L2. auto.
    + simpl. rewrite orb_false_r. intros H. apply orb_true_iff in H as [H|H];
        [apply me_sel1 | apply me_sel2]; auto.
Qed.

Variable G : nat -> ty.

Lemma built_typed : forall n e p, built g n e p ->
  (forall x f v, lookup x (g_actions g) = Some f -> f v <> None) ->
  (forall x q, lookup x (g_rules g) = Some (Native q) -> exists T, typed cfg G q T) ->
  typed cfg G p anything.
Proof.
  intros n e p B TA TI.
  assert (Act : forall x q, typed cfg G q anything ->
    typed cfg G (match lookup x (g_actions g) with None => q | Some f => PTransform q f end) anything).
  { intros x q H. destruct (lookup x (g_actions g)) as [f|] eqn:L; auto.
    eapply T_transform; eauto. intros v _. destruct (f v) as [w|] eqn:F.
    - exists w. split; auto. exact I.
    - destruct (TA _ _ v L F). }
  induction B.
  - eapply T_sub; [apply lit_typed|]. intros v _. exact I.
  - apply Act. exact IHB.
  - apply Act. destruct (TI _ _ H) as (T & HT). eapply T_sub; [exact HT|]. intros v _. exact I.
  - eapply T_sub.
    + eapply (T_foldl _ _ _ _ a_seq); [exact IHB | eexists; eauto|].
      intros v w (l & ->) _. eexists; split; [reflexivity|]. eexists; eauto.
    + intros v _. exact I.
  - eapply T_sub.
    + eapply (T_foldl1 _ _ _ _ a_seq); [exact IHB | eexists; eauto|].
      intros v w (l & ->) _. eexists; split; [reflexivity|]. eexists; eauto.
    + intros v _. exact I.
  - eapply T_sub.
    + apply (T_sequence _ _ _ [anything; anything]);
        [apply (fs cfg fits_g); simpl; lia | discriminate | repeat constructor; auto].
    + intros v _. exact I.
  - apply T_one_of; [apply (fo cfg fits_g); simpl; lia|]. simpl. repeat constructor; auto.
Qed.

End Verdict.

Lemma grammar_parser_start : forall cfg env n g x s ps, grammar_fits cfg -> start_name g x ->
  (length (g_start g) < n)%nat ->
  grammar_parser cfg env n g s ps =
  match instantiate g n (GName x) with
  | Ok p => eval cfg env n p s ps
  | Ill => Illformed
  | Deep => OutOfFuel
  end.
Proof.
  intros cfg env n g x s ps F (rest & E & W & N) L. unfold grammar_parser.
  rewrite E in L |- *. rewrite rebuild_complete; auto.
Qed.

Lemma start_name_unique : forall g x y, start_name g x -> start_name g y -> x = y.
Proof.
  intros g x y (r1 & E1 & (_ & F1) & N1) (r2 & E2 & (_ & F2) & N2).
  assert (H : x ++ r1 = y ++ r2) by (etransitivity; [symmetry|]; eauto).
  clear E1 E2. revert y F2 H. induction x as [|c x IH]; intros [|d y] F2 H; auto; simpl in H.
  - subst r1. simpl in N1. inversion F2; subst. contradiction.
  - subst r2. simpl in N2. inversion F1; subst. contradiction.
  - injection H; intros H' <-. inversion F1; subst. inversion F2; subst. f_equal. apply IH; auto.
Qed.

Lemma grammar_parser_inv : forall cfg env n g s ps o, grammar_fits cfg ->
  grammar_parser cfg env n g s ps = o -> (forall v rem q, o <> Accept v rem q) /\ (forall m q, o <> Reject m q)
  \/ exists x p, start_name g x /\ instantiate g n (GName x) = Ok p /\ eval cfg env n p s ps = o.
Proof.
  intros cfg env n g s ps o F E. unfold grammar_parser in E.
  destruct (rebuild cfg n (g_start g)) as [x | |] eqn:B; [|left; split; congruence ..].
  destruct (instantiate g n (GName x)) as [p | |] eqn:I; [|left; split; congruence ..].
  right. exists x, p. splits; auto. eapply rebuild_ok; eauto.
Qed.

Lemma no_start_name : forall cfg n g, grammar_fits cfg -> (forall x, ~ start_name g x) ->
  (2 * length (g_start g) + 3 < n)%nat -> rebuild cfg n (g_start g) = Ill.
Proof.
  intros cfg n g F N L. destruct (rebuild cfg n (g_start g)) as [x | |] eqn:B; auto.
  - apply rebuild_ok in B; auto. destruct (N x B).
  - exfalso. unfold rebuild, build_parser in B.
    destruct (verdict cfg F name_token a_str n (g_start g) start) as [(v & s' & ps' & E)|(m & pe & E)];
      [apply name_token_loops | reflexivity | apply name_token_typed; auto | exact L | |].
    + rewrite E in B. destruct v; discriminate.
    + rewrite E in B. discriminate.
Qed.
