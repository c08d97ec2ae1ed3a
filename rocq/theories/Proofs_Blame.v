(** Proofs for C91. *)

From Coq Require Import ZArith List Bool Lia.
From Verif Require Import Base Spec SpecPeg SpecCfg SpecBlame Proofs_Cfg.
Import ListNotations.
Open Scope Z_scope.

(** ** Lists *)

Lemma app_split : forall (A : Type) (a b c d : list A), a ++ b = c ++ d ->
  (exists x z, a = c ++ x :: z) \/ (a = c /\ b = d) \/ (exists x z, c = a ++ x :: z /\ b = x :: z ++ d).
Proof.
  induction a as [|x a IH]; intros b [|y c] d E; simpl in *.
  - auto.
  - right. right. exists y, c. auto.
  - left. exists x, a. reflexivity.
  - injection E as <- E. destruct (IH _ _ _ E) as [(u & z & ->)|[(-> & ->)|(u & z & -> & ->)]].
    + left. exists u, z. reflexivity.
    + right. left. auto.
    + right. right. exists u, z. auto.
Qed.

Section Language.
Variable rules : nat -> parsing_expression.
Notation derives := (derives rules).
Notation nullable := (nullable rules).
Notation first := (first rules).
Notation begins := (begins rules).
Notation blames := (blames rules).
Variable follow : nat -> char -> Prop.
Hypothesis LL : ll1_grammar rules follow.

Lemma first_app : forall g c w, derives g (c :: w) -> first g c.
Proof. intros. exists w. assumption. Qed.

Lemma inv_seq : forall a b z, derives (FSeq a b) z ->
  exists x y, x ++ y = z /\ derives a x /\ derives b y.
Proof. intros a b z D. inversion D; subst. eauto. Qed.

(** ** One word *)

Lemma star_first : forall g w, derives g w -> forall a, g = FStar a -> ~ nullable a ->
  match w with [] => True | c :: _ => first a c end.
Proof.
  induction 1; intros a0 E N; try discriminate; [exact I|].
  injection E as ->. destruct u as [|c u]; [elim (N H)|]. exists u. assumption.
Qed.

Lemma one_word : forall g w1, derives g w1 -> forall F, one_decides rules follow g F ->
  forall w2 s1 s2, derives g w2 -> goes_on_with F s1 -> goes_on_with F s2 ->
  w1 ++ s1 = w2 ++ s2 -> w1 = w2.
Proof.
  induction 1; intros F O w2 s1 s2 D2 G1 G2 E; simpl in O.
  - inversion D2; subst. reflexivity.
  - inversion D2; subst. injection E as ->. reflexivity.
  - destruct O as (O1 & O2). inversion D2 as [ | |? ? u2 v2 Da Db| | | | | | ]; subst.
    rewrite <- !app_assoc in E.
    assert (u = u2) as <-.
    { apply (IHderives1 _ O1 u2 (v ++ s1) (v2 ++ s2) Da); auto using goes_on_app. }
    apply app_inv_head in E. rewrite (IHderives2 _ O2 v2 s1 s2 Db G1 G2 E). reflexivity.
  - destruct O as (N & A & B & O1 & O2). inversion D2 as [ | | |? ? ? Da|? ? ? Da| | | | ]; subst; [eauto|].
    exfalso. destruct w as [|c w]; [elim (N H)|]. apply first_app in H.
    destruct w2 as [|c2 w2]; simpl in E.
    + destruct s2 as [|c2 s2]; [discriminate|]. injection E as <- _. exact (B Da c H G2).
    + injection E as <- _. apply (A c H). exists w2. exact Da.
  - destruct O as (N & A & B & O1 & O2). inversion D2 as [ | | |? ? ? Da|? ? ? Da| | | | ]; subst; [|eauto].
    exfalso. destruct w2 as [|c w2]; [elim (N Da)|]. apply first_app in Da.
    destruct w as [|c2 w]; simpl in E.
    + destruct s1 as [|c2 s1]; [discriminate|]. injection E as -> _. exact (B H c Da G1).
    + injection E as -> _. apply (A c Da). exists w. exact H.
  - destruct O as (N & A & O1). pose proof (star_first _ _ D2 a eq_refl N) as X.
    destruct w2 as [|c w2]; [reflexivity|]. exfalso. simpl in E.
    destruct s1; [discriminate|]. injection E as -> _. exact (A _ X G1).
  - destruct O as (N & A & O1).
    inversion D2 as [ | | | | | |? u2 v2 Da Db| | ]; subst.
    + exfalso. destruct u as [|c u]; [elim (N H)|]. simpl in E. destruct s2; [discriminate|].
      injection E as <- _. apply first_app in H. exact (A _ H G2).
    + rewrite <- !app_assoc in E.
      assert (Y : forall v s, derives (FStar a) v -> goes_on_with F s ->
        goes_on_with (fun c => first a c \/ F c) (v ++ s)).
      { intros v' s' D G. pose proof (star_first _ _ D a eq_refl N) as X.
        destruct v'; simpl; [destruct s'; simpl in *; auto|left; exact X]. }
      assert (u = u2) as <- by (apply (IHderives1 _ O1 u2 (v ++ s1) (v2 ++ s2) Da); auto).
      apply app_inv_head in E. f_equal.
      apply (IHderives2 F) with (s1 := s1) (s2 := s2); auto. simpl. auto.
  - contradiction.
  - inversion D2 as [ | | | | | | | |? ? Da]; subst.
    apply (IHderives _ (LL k) w2 s1 s2 Da); auto.
    + destruct s1; simpl in *; auto.
    + destruct s2; simpl in *; auto.
Qed.

(** One word of [a] is read, and then the text goes on in a way that could not have
    been read by [a]. *)
Lemma same_split : forall a F w x y t, one_decides rules follow a F ->
  derives a w -> derives a x -> x ++ y = w ++ t -> goes_on_with F y ->
  match t with [] => True | c :: _ => ~ begins a (w ++ [c]) \/ F c end -> x = w.
Proof.
  intros a F w x y t O Dw Dx E Gy Gt.
  destruct (app_split _ _ _ _ _ E) as [(c & z & ->)|[(-> & _)|(c & z & -> & ->)]]; [|reflexivity|].
  - rewrite <- app_assoc in E. apply app_inv_head in E. destruct t as [|d t]; [discriminate|].
    injection E as <- E. destruct Gt as [Gt|Gt].
    + elim Gt. exists z. rewrite <- app_assoc. exact Dx.
    + apply (one_word _ _ Dx F O w [] (c :: z) Dw); simpl; auto. rewrite app_nil_r. reflexivity.
  - apply (one_word _ _ Dx F O (x ++ c :: z) (c :: z) [] Dw); simpl; auto. rewrite app_nil_r. reflexivity.
Qed.

(** ** Blame *)

Lemma productive_word : forall g, productive rules g -> exists w, derives g w.
Proof.
  induction g; simpl; intros H; try contradiction.
  - exists []. constructor.
  - destruct H as (c & H). exists [c]. constructor. exact H.
  - destruct H as (H1 & H2). destruct (IHg1 H1) as (u & D1), (IHg2 H2) as (v & D2).
    exists (u ++ v). constructor; assumption.
  - destruct H as (H1 & H2). destruct (IHg1 H1) as (u & D1). exists u. apply d_alt_left. exact D1.
  - exists []. constructor.
  - destruct H as (w & D). exists w. constructor. exact D.
Qed.

Definition good (g : parsing_expression) (s : str) (o : blame_outcome) : Prop :=
  match o with
  | Ok s' => exists w, s = w ++ s' /\ derives g w
      /\ match s' with [] => True | c :: _ => ~ begins g (w ++ [c]) end
  | Bad t => exists u, s = u ++ t /\ begins g u /\ ~ derives g u
      /\ match t with [] => True | c :: _ => ~ begins g (u ++ [c]) end
  end.

Lemma one_character_stops : forall a s t, one_character a -> blames a s (Bad t) -> t = s.
Proof.
  induction a; simpl; intros s t H B; try contradiction.
  - inversion B; subst. reflexivity.
  - destruct H as (H1 & H2). inversion B; subst; eauto.
Qed.

Lemma begins_longer : forall g u v, begins g (u ++ v) -> begins g u.
Proof. intros g u v (w & D). exists (v ++ w). rewrite app_assoc. exact D. Qed.

Lemma begins_first : forall g c u, begins g (c :: u) -> first g c.
Proof. intros g c u (w & D). exists (u ++ w). exact D. Qed.

Hypothesis all_productive : forall k, productive rules (rules k).
Hypothesis all_little : forall k, gives_up_little rules (rules k).

Lemma blames_good : forall g s o, blames g s o ->
  forall F, one_decides rules follow g F -> productive rules g -> gives_up_little rules g ->
  good g s o.
Proof.
  induction 1; intros F O Pr Gi; simpl in O, Pr, Gi.
  - exists []. split; [reflexivity|]. split; [constructor|]. destruct s; auto.
    intros (v & D). inversion D.
  - contradiction.
  - exists [c]. split; [reflexivity|]. split; [constructor; assumption|]. destruct s; auto.
    intros (v & D). inversion D.
  - exists []. split; [reflexivity|]. destruct Pr as (c & Pc). split.
    + exists [c]. constructor. exact Pc.
    + split; [intros D; inversion D|]. destruct s as [|d s]; auto.
      intros (v & D). simpl in *. inversion D; subst. auto.
  - destruct O as (O1 & O2), Pr as (P1 & P2), Gi as (G1 & G2).
    destruct (IHblames1 _ O1 P1 G1) as (w & -> & Dw & Mw).
    specialize (IHblames2 _ O2 P2 G2).
    assert (U : forall u x y t z, derives a x -> derives b y -> s1 = u ++ t -> x ++ y = w ++ u ++ z ->
      begins b u -> (u = [] -> match z with [] => True | c :: _ => match t with [] => False | d :: _ => c = d end end) ->
      x = w /\ y = u ++ z).
    { intros u x y t z Dx Dy Es E Bu Hz. assert (x = w) as ->.
      { apply (same_split a _ w x y (u ++ z) O1 Dw Dx E).
        - rewrite <- (app_nil_r y). apply goes_on_app; simpl; auto.
        - destruct u as [|d u]; simpl in *.
          + specialize (Hz eq_refl). destruct z as [|c z]; auto. destruct t as [|d t]; [contradiction|].
            subst. left. exact Mw.
          + right. left. exact (begins_first _ _ _ Bu). }
      apply app_inv_head in E. auto. }
    destruct o as [s'|t]; simpl in IHblames2 |- *.
    + destruct IHblames2 as (v & -> & Dv & Mv). exists (w ++ v). rewrite app_assoc.
      split; [reflexivity|]. split; [constructor; assumption|]. destruct s' as [|c s']; auto.
      intros (v' & D). destruct (inv_seq _ _ _ D) as (x & y & E & Dx & Dy).
      rewrite <- !app_assoc in E. simpl in E.
      destruct (U v x y (c :: s') (c :: v') Dx Dy eq_refl E) as (-> & ->).
      * exists []. rewrite app_nil_r. exact Dv.
      * auto.
      * apply Mv. exists v'. rewrite <- app_assoc. exact Dy.
    + destruct IHblames2 as (u & -> & Bu & Nu & Mu). exists (w ++ u). rewrite app_assoc.
      split; [reflexivity|]. split; [|split].
      * destruct Bu as (v & D). exists v. rewrite <- app_assoc. constructor; assumption.
      * intros D. destruct (inv_seq _ _ _ D) as (x & y & E & Dx & Dy).
        destruct (U u x y t [] Dx Dy eq_refl) as (-> & ->); auto.
        { rewrite app_nil_r. exact E. }
        { apply Nu. rewrite app_nil_r in Dy. exact Dy. }
      * destruct t as [|c t]; auto. intros (v & D).
        destruct (inv_seq _ _ _ D) as (x & y & E & Dx & Dy). rewrite <- !app_assoc in E. simpl in E.
        destruct (U u x y (c :: t) (c :: v) Dx Dy eq_refl E) as (-> & ->); auto.
        apply Mu. exists v. rewrite <- app_assoc. exact Dy.
  - destruct O as (O1 & O2), Pr as (P1 & P2), Gi as (G1 & G2).
    destruct (IHblames _ O1 P1 G1) as (u & -> & (v & Bu) & Nu & Mu). exists u.
    destruct (productive_word _ P2) as (v2 & D2).
    split; [reflexivity|].
    assert (U : forall x y z, derives a x -> derives b y -> x ++ y = u ++ z ->
      (exists d z', x = u ++ d :: z')).
    { intros x y z Dx Dy E. destruct (app_split _ _ _ _ _ E) as [X|[(-> & _)|(d & z' & -> & ->)]]; auto.
      - contradiction.
      - exfalso. rewrite <- app_assoc in Bu. simpl in Bu.
        assert (Y : x = x ++ d :: z' ++ v).
        { apply (one_word _ _ Dx _ O1 _ (d :: z' ++ v) [] Bu); simpl; auto.
          - left. exact (first_app _ _ _ Dy).
          - rewrite app_nil_r. reflexivity. }
        rewrite <- (app_nil_r x) in Y at 1. apply app_inv_head in Y. discriminate. }
    split; [|split].
    + exists (v ++ v2). rewrite app_assoc. constructor; assumption.
    + intros D. destruct (inv_seq _ _ _ D) as (x & y & E & Dx & Dy).
      destruct (U x y [] Dx Dy) as (d & z' & ->); [rewrite app_nil_r; exact E|].
      apply (f_equal (@length _)) in E. rewrite !app_length in E. simpl in E. lia.
    + destruct t as [|c t]; auto. intros (v' & D).
      destruct (inv_seq _ _ _ D) as (x & y & E & Dx & Dy). rewrite <- app_assoc in E. simpl in E.
      destruct (U x y _ Dx Dy E) as (d & z' & ->). rewrite <- app_assoc in E.
      apply app_inv_head in E. injection E as -> _.
      apply Mu. exists z'. rewrite <- app_assoc. exact Dx.
  - destruct O as (N & A & B & O1 & O2), Pr as (P1 & P2), Gi as (G0 & G1 & G2).
    destruct (IHblames _ O1 P1 G1) as (w & -> & D & M). exists w. split; [reflexivity|].
    split; [apply d_alt_left; exact D|]. destruct s1 as [|c s1]; auto.
    intros (v & X). inversion X as [ | | |? ? ? Da|? ? ? Da| | | | ]; subst; [apply M; exists v; exact Da|].
    destruct w as [|d w]; [elim (N D)|]. apply (A d); [exact (first_app _ _ _ D)|exact (first_app _ _ _ Da)].
  - destruct O as (N & A & B & O1 & O2), Pr as (P1 & P2), Gi as (G0 & G1 & G2).
    destruct (IHblames1 _ O1 P1 G1) as (u & E & Bu & Nu & Mu).
    destruct (IHblames2 _ O2 P2 G2) as (w & -> & D & M). exists w. split; [reflexivity|].
    split; [apply d_alt_right; exact D|]. destruct s1 as [|c s1]; auto.
    intros (v & X). inversion X as [ | | |? ? ? Da|? ? ? Da| | | | ]; subst; [|apply M; exists v; exact Da].
    destruct w as [|d w].
    + specialize (G0 D). pose proof (one_character_stops _ _ _ G0 H) as Et. subst t.
      destruct u as [|e u]; [|apply (f_equal (@length _)) in E; simpl in E; rewrite app_length in E; simpl in E; lia].
      apply Mu. exists v. exact Da.
    + destruct (app_split _ _ _ _ _ E) as [(e & z & E')|[(Eu & Et)|(e & z & Eu & Et)]]; try (subst u t).
      * destruct t as [|e' t].
        { apply (f_equal (@length _)) in E. rewrite !app_length in E. simpl in E.
          apply (f_equal (@length _)) in E'. rewrite !app_length in E'. simpl in E'. lia. }
        rewrite E' in E. rewrite <- app_assoc in E. apply app_inv_head in E. injection E as <- E.
        apply Mu. apply (begins_longer a (u ++ [e]) (z ++ [c])). exists v.
        rewrite <- !app_assoc. simpl. rewrite E', <- !app_assoc in Da. simpl in Da. exact Da.
      * apply Mu. exists v. exact Da.
      * apply (A d); [|exact (first_app _ _ _ D)]. subst u. simpl in Bu. exact (begins_first _ _ _ Bu).
  - (* the first one is further *)
    destruct O as (N & A & B & O1 & O2), Pr as (P1 & P2), Gi as (G0 & G1 & G2).
    destruct (IHblames1 _ O1 P1 G1) as (u & -> & Bu & Nu & Mu).
    destruct (IHblames2 _ O2 P2 G2) as (u' & E & Bu' & Nu' & Mu').
    assert (X : exists d z, u = u' ++ d :: z /\ t' = d :: z ++ t).
    { destruct (app_split _ _ _ _ _ E) as [(d & z & ->)|[(-> & ->)|(d & z & -> & ->)]].
      - rewrite <- app_assoc in E. apply app_inv_head in E. simpl in E. eauto.
      - lia.
      - simpl in *. rewrite app_length in *. lia. }
    destruct X as (d & z & -> & ->). exists (u' ++ d :: z). split; [reflexivity|].
    destruct Bu as (v & Bu). split; [exists v; apply d_alt_left; exact Bu|].
    assert (Y : forall k, ~ derives b ((u' ++ d :: z) ++ k)).
    { intros k D. apply Mu'. exists (z ++ k). rewrite <- app_assoc in D |- *. exact D. }
    split.
    + intros D. inversion D as [ | | |? ? ? Da|? ? ? Da| | | | ]; subst; [auto|].
      apply (Y []). rewrite app_nil_r. exact Da.
    + destruct t as [|c t]; auto. intros (k & D).
      inversion D as [ | | |? ? ? Da|? ? ? Da| | | | ]; subst; [apply Mu; exists k; exact Da|].
      apply (Y ([c] ++ k)). rewrite <- app_assoc in Da. exact Da.
  - (* the second one is at least as far *)
    destruct O as (N & A & B & O1 & O2), Pr as (P1 & P2), Gi as (G0 & G1 & G2).
    destruct (IHblames1 _ O1 P1 G1) as (u & E & Bu & Nu & Mu).
    destruct (IHblames2 _ O2 P2 G2) as (u' & -> & Bu' & Nu' & Mu').
    exists u'. split; [reflexivity|].
    destruct Bu' as (v & Bu'). split; [exists v; apply d_alt_right; exact Bu'|].
    assert (X : u' = u /\ t' = t \/ exists d z, u' = u ++ d :: z /\ t = d :: z ++ t').
    { destruct (app_split _ _ _ _ _ E) as [(d & z & ->)|[(-> & ->)|(d & z & -> & ->)]]; auto.
      - rewrite <- app_assoc in E. apply app_inv_head in E. simpl in E. eauto.
      - simpl in *. rewrite app_length in *. lia. }
    destruct X as [(-> & ->)|(d & z & -> & ->)].
    + split.
      * intros D. inversion D; subst; auto.
      * destruct t as [|c t]; auto. intros (k & D).
        inversion D as [ | | |? ? ? Da|? ? ? Da| | | | ]; subst; [apply Mu|apply Mu']; exists k; exact Da.
    + assert (Y : forall k, ~ derives a ((u ++ d :: z) ++ k)).
      { intros k D. apply Mu. exists (z ++ k). rewrite <- app_assoc in D |- *. exact D. }
      split.
      * intros D. inversion D as [ | | |? ? ? Da|? ? ? Da| | | | ]; subst; [|auto].
        apply (Y []). rewrite app_nil_r. exact Da.
      * destruct t' as [|c t']; auto. intros (k & D).
        inversion D as [ | | |? ? ? Da|? ? ? Da| | | | ]; subst; [|apply Mu'; exists k; exact Da].
        apply (Y ([c] ++ k)). rewrite <- app_assoc in Da. exact Da.
  - (* repetition: stop *)
    destruct O as (N & A & O1). destruct (IHblames _ O1 Pr Gi) as (u & E & Bu & Nu & Mu).
    assert (u = []) as ->.
    { destruct u; auto. apply (f_equal (@length _)) in E. simpl in E. rewrite app_length in E. lia. }
    exists []. split; [reflexivity|]. split; [constructor|]. destruct s as [|c s]; auto.
    intros (v & D). simpl in D. pose proof (star_first _ _ D a eq_refl N) as (z & X).
    apply Mu. exists z. exact X.
  - (* repetition: an incomplete element *)
    destruct O as (N & A & O1). destruct (IHblames _ O1 Pr Gi) as (u & -> & (v & Bu) & Nu & Mu).
    exists u. split; [reflexivity|].
    assert (U : forall x y z, derives a x -> derives (FStar a) y -> x ++ y = u ++ z ->
      (exists d z', x = u ++ d :: z')).
    { intros x y z Dx Dy E. destruct (app_split _ _ _ _ _ E) as [X|[(-> & _)|(d & z' & -> & ->)]]; auto.
      - contradiction.
      - exfalso. rewrite <- app_assoc in Bu. simpl in Bu.
        assert (Y : x = x ++ d :: z' ++ v).
        { apply (one_word _ _ Dx _ O1 _ (d :: z' ++ v) [] Bu); simpl; auto.
          - left. exact (star_first _ _ Dy a eq_refl N).
          - rewrite app_nil_r. reflexivity. }
        rewrite <- (app_nil_r x) in Y at 1. apply app_inv_head in Y. discriminate. }
    assert (V : forall w, derives (FStar a) w -> forall z, w = u ++ z ->
      exists x y d z', w = x ++ y /\ derives a x /\ x = u ++ d :: z').
    { intros w D z E. inversion D as [ | | | | | |? x y Dx Dy| | ]; subst.
      - destruct u; [|discriminate]. rewrite app_length in H0. simpl in H0. lia.
      - destruct (U x y z Dx Dy) as (d & z' & E'); [assumption|].
        exists x, y, d, z'. auto. }
    split; [|split].
    + exists v. replace (u ++ v) with ((u ++ v) ++ []) by apply app_nil_r.
      apply d_star_more; [exact Bu|constructor].
    + intros D. destruct (V u D []) as (x & y & d & z' & E & Dx & ->); [rewrite app_nil_r; reflexivity|].
      apply (f_equal (@length _)) in E. rewrite !app_length in E. simpl in E. lia.
    + destruct t as [|c t]; auto. intros (v' & D). rewrite <- app_assoc in D.
      destruct (V _ D _ eq_refl) as (x & y & d & z' & E & Dx & ->).
      rewrite <- app_assoc in E. apply app_inv_head in E. injection E as -> _.
      apply Mu. exists z'. rewrite <- app_assoc. exact Dx.
  - (* repetition: one more *)
    destruct O as (N & A & O1).
    destruct (IHblames1 _ O1 Pr Gi) as (w & -> & Dw & Mw).
    specialize (IHblames2 F (conj N (conj A O1)) Pr Gi).
    assert (U : forall u x y t z, derives a x -> derives (FStar a) y -> s1 = u ++ t -> x ++ y = w ++ u ++ z ->
      begins (FStar a) u -> (u = [] -> match z with [] => True | c :: _ => match t with [] => False | d :: _ => c = d end end) ->
      x = w /\ y = u ++ z).
    { intros u x y t z Dx Dy Es E (v & Bu) Hz. assert (x = w) as ->.
      { apply (same_split a _ w x y (u ++ z) O1 Dw Dx E).
        - pose proof (star_first _ _ Dy a eq_refl N). destruct y; simpl; auto.
        - destruct u as [|d u]; simpl in *.
          + specialize (Hz eq_refl). destruct z as [|c z]; auto. destruct t as [|d t]; [contradiction|].
            subst. left. exact Mw.
          + right. left. exact (star_first _ _ Bu a eq_refl N). }
      apply app_inv_head in E. auto. }
    assert (W : forall z, derives (FStar a) z -> z <> [] -> exists x y, z = x ++ y /\ derives a x /\ derives (FStar a) y).
    { intros z D Nz. inversion D; subst; [congruence|eauto]. }
    assert (Nw : w <> []) by (intros ->; exact (N Dw)).
    destruct o as [s'|t]; simpl in IHblames2 |- *.
    + destruct IHblames2 as (v & -> & Dv & Mv). exists (w ++ v). rewrite app_assoc.
      split; [reflexivity|]. split; [apply d_star_more; assumption|]. destruct s' as [|c s']; auto.
      intros (v' & D). rewrite <- !app_assoc in D. simpl in D.
      destruct (W _ D) as (x & y & E & Dx & Dy); [intros X; apply app_eq_nil in X as (X & _); auto|].
      destruct (U v x y (c :: s') (c :: v') Dx Dy eq_refl (eq_sym E)) as (-> & ->).
      * exists []. rewrite app_nil_r. exact Dv.
      * auto.
      * apply Mv. exists v'. rewrite <- app_assoc. exact Dy.
    + destruct IHblames2 as (u & -> & Bu & Nu & Mu). exists (w ++ u). rewrite app_assoc.
      split; [reflexivity|]. split; [|split].
      * destruct Bu as (v & D). exists v. rewrite <- app_assoc. apply d_star_more; assumption.
      * intros D.
        destruct (W _ D) as (x & y & E & Dx & Dy); [intros X; apply app_eq_nil in X as (X & _); auto|].
        destruct (U u x y t [] Dx Dy eq_refl) as (-> & ->); auto.
        { rewrite app_nil_r. symmetry. exact E. }
        { apply Nu. rewrite app_nil_r in Dy. exact Dy. }
      * destruct t as [|c t]; auto. intros (v & D). rewrite <- !app_assoc in D. simpl in D.
        destruct (W _ D) as (x & y & E & Dx & Dy); [intros X; apply app_eq_nil in X as (X & _); auto|].
        destruct (U u x y (c :: t) (c :: v) Dx Dy eq_refl (eq_sym E)) as (-> & ->); auto.
        apply Mu. exists v. rewrite <- app_assoc. exact Dy.
  - specialize (IHblames _ (LL k) (all_productive k) (all_little k)).
    destruct o as [s'|t]; simpl in *.
    + destruct IHblames as (w & -> & D & M). exists w. split; [reflexivity|].
      split; [constructor; exact D|]. destruct s'; auto.
      intros (v & X). inversion X; subst. apply M. exists v. assumption.
    + destruct IHblames as (u & -> & (v & B) & Nu & M). exists u. split; [reflexivity|].
      split; [exists v; constructor; exact B|]. split; [intros X; inversion X; auto|].
      destruct t; auto. intros (k' & X). inversion X; subst. apply M. exists k'. assumption.
Qed.
End Language.
