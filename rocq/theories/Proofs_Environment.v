(** Proofs for tools/build_environment.py: C84. *)

From Coq Require Import ZArith List Bool Lia Permutation Sorted.
From Verif Require Import Base Util Spec Messages Generate BenchmarkRun Environment SpecEnvironment
  Proofs_Generate Proofs_BenchRun.
Import ListNotations.
Open Scope Z_scope.

(** ** Reading back what was written *)

Lemma below_128 : forall c, 0 <= c < 128 -> In c (map Z.of_nat (seq 0 128)).
Proof.
  intros c H. apply in_map_iff. exists (Z.to_nat c). split; [lia|]. apply in_seq. lia.
Qed.

Lemma json_char : forall c r, 0 <= c < 128 ->
  json_string (escape_char c ++ r) = match json_string r with Some (t, rest) => Some (c :: t, rest) | None => None end.
Proof.
  intros c r H. apply below_128 in H. cbn [map seq] in H.
  repeat (destruct H as [<-|H]; [reflexivity|]). destruct H.
Qed.

Lemma json_chars : forall s r, ascii_text s -> json_string (concat (map escape_char s) ++ 34 :: r) = Some (s, r).
Proof.
  induction s as [|c s IH]; intros r H; [reflexivity|]. inversion H; subst. cbn [map concat].
  rewrite <- app_assoc, json_char by assumption. rewrite IH by assumption. reflexivity.
Qed.

Lemma json_quoted_quote : forall s r, ascii_text s -> json_quoted (json_quote s ++ r) = Some (s, r).
Proof.
  intros s r H. unfold json_quote. cbn [app json_quoted]. rewrite <- app_assoc. cbn [app].
  apply json_chars. exact H.
Qed.

Definition ascii_items (l : list (str * str)) : Prop := Forall (fun x => ascii_text (fst x) /\ ascii_text (snd x)) l.

Lemma json_items_dump : forall l n r, l <> [] -> ascii_items l -> (length l <= n)%nat ->
  json_items n (dump_items l ++ [10] ++ literal "}" ++ r) = Some (l, r).
Proof.
  induction l as [|(k, v) l IH]; intros n r N A L; [congruence|]. inversion A as [|? ? [A1 A2] A3]; subst.
  destruct n as [|n]; [cbn in L; lia|]. cbn [json_items].
  destruct l as [|y l].
  - cbn [dump_items]. unfold dump_item. cbn [fst snd] in *.
    rewrite <- !app_assoc, json_quoted_quote by assumption. cbn [literal app].
    change (literal ": ") with [58; 32]. cbn [app json_space is_whitespace_c Z.eqb Pos.eqb orb].
    replace (json_space (json_quote v ++ 10 :: literal "}" ++ r)) with (json_quote v ++ 10 :: literal "}" ++ r) by reflexivity.
    rewrite json_quoted_quote by assumption. reflexivity.
  - cbn [dump_items]. fold dump_items. unfold dump_item at 1. cbn [fst snd] in *.
    rewrite <- !app_assoc, json_quoted_quote by assumption.
    change (literal ": ") with [58; 32]. cbn [app json_space is_whitespace_c Z.eqb Pos.eqb orb].
    match goal with |- context [json_space (json_quote v ++ ?z)] =>
      replace (json_space (json_quote v ++ z)) with (json_quote v ++ z) by reflexivity end.
    rewrite json_quoted_quote by assumption. change (literal ", ") with [44; 32].
    cbn [app json_space is_whitespace_c Z.eqb Pos.eqb orb].
    match goal with |- context [json_space ?z] => replace (json_space z) with (dump_items (y :: l) ++ [10] ++ literal "}" ++ r) end.
    + rewrite IH; [reflexivity | congruence | assumption | cbn in *; lia].
    + destruct l; reflexivity.
Qed.

Lemma dump_items_length : forall l, (length l <= length (dump_items l))%nat.
Proof.
  induction l as [|x l IH]; [apply le_n|]. destruct l as [|y l].
  - cbn [dump_items]. unfold dump_item, json_quote. cbn. lia.
  - cbn [dump_items] in *. rewrite app_length. unfold dump_item at 1, json_quote at 1. cbn [app length] in *.
    rewrite !app_length in *. cbn in *. lia.
Qed.

(** *** Sorting *)

Lemma before_less : forall a b, before a b <-> list_less a b = true.
Proof.
  intros a b. split.
  - induction 1; cbn [list_less]; [reflexivity | apply Z.ltb_lt in H; rewrite H; reflexivity |].
    rewrite Z.eqb_refl, IHbefore, orb_true_r. reflexivity.
  - revert b. induction a as [|x a IH]; intros [|y b] H; try discriminate; [constructor|]. cbn [list_less] in H.
    apply orb_true_iff in H as [H|H]; [apply Z.ltb_lt in H; constructor; exact H|].
    apply andb_true_iff in H as [E H]. apply Z.eqb_eq in E. subst. apply before_later. apply IH. exact H.
Qed.

Lemma sort_in_perm : forall x l, Permutation (sort_in x l) (x :: l).
Proof.
  intros x l. induction l as [|y l IH]; [apply Permutation_refl|]. cbn [sort_in].
  destruct (list_less _ _); [|apply Permutation_refl].
  eapply Permutation_trans; [apply perm_skip; exact IH | apply perm_swap].
Qed.
Lemma sort_items_perm : forall l, Permutation (sort_items l) l.
Proof.
  induction l as [|x l IH]; [constructor|]. cbn [sort_items fold_right]. fold (sort_items l).
  eapply Permutation_trans; [apply sort_in_perm | apply perm_skip; exact IH].
Qed.

Lemma less_total : forall a b, list_less a b = false -> a = b \/ list_less b a = true.
Proof.
  induction a as [|x a IH]; intros [|y b] H; cbn [list_less] in *; try (right; reflexivity); [left; reflexivity | discriminate|].
  apply orb_false_iff in H as [H1 H2]. apply Z.ltb_ge in H1. destruct (Z.eqb_spec x y) as [->|N].
  - cbn [andb] in H2. destruct (IH _ H2) as [->|L]; [left; reflexivity|]. right. rewrite Z.eqb_refl, L, orb_true_r. reflexivity.
  - right. replace (y <? x) with true; [reflexivity|]. symmetry. apply Z.ltb_lt. lia.
Qed.

Definition key_before (x y : str * str) : Prop := list_less (fst x) (fst y) = true.

Lemma sort_in_sorted : forall x l, StronglySorted key_before l -> ~ In (fst x) (map fst l) -> StronglySorted key_before (sort_in x l).
Proof.
  intros x l S. induction S as [|y l S IH F]; intros N; cbn [sort_in].
  - repeat constructor.
  - destruct (list_less (fst y) (fst x)) eqn:E.
    + constructor; [apply IH; intros I; apply N; right; exact I|].
      eapply Permutation_Forall; [apply Permutation_sym, sort_in_perm|]. constructor; assumption.
    + destruct (less_total _ _ E) as [Q|L]; [exfalso; apply N; left; exact Q|].
      constructor; [constructor; assumption|]. constructor; [exact L|].
      eapply Forall_impl; [|exact F]. intros z Z. unfold key_before in *. eapply less_trans; eassumption.
Qed.
Lemma sort_items_sorted : forall l, NoDup (map fst l) -> StronglySorted key_before (sort_items l).
Proof.
  induction l as [|x l IH]; intros N; [constructor|]. cbn [map] in N. inversion N; subst.
  cbn [sort_items fold_right]. fold (sort_items l). apply sort_in_sorted; [apply IH; assumption|].
  intros I. apply H1. eapply Permutation_in; [apply Permutation_map, sort_items_perm | exact I].
Qed.

Lemma dict_of_fresh : forall l, NoDup (map fst l) -> dict_of l = l.
Proof.
  intros l N. unfold dict_of. rewrite fold_fresh with (key := fst) (val := snd).
  - cbn [app]. rewrite <- (map_id l) at 2. apply map_ext. intros (a, b). reflexivity.
  - cbn [map app]. exact N.
Qed.

Lemma dumps_sorted : forall d, NoDup (map fst d) -> ascii_items d -> loads (dumps d) = Some (sort_items d).
Proof.
  intros d N A.
  assert (A' : ascii_items (sort_items d)) by (eapply Permutation_Forall; [apply Permutation_sym, sort_items_perm | exact A]).
  assert (N' : NoDup (map fst (sort_items d))).
  { eapply Permutation_NoDup; [apply Permutation_map, Permutation_sym, sort_items_perm | exact N]. }
  unfold dumps. destruct (sort_items d) as [|x l] eqn:E; [reflexivity|].
  remember (x :: l) as L eqn:EL. clear E.
  assert (F : exists c r, dump_items L = c :: r /\ c = 34).
  { subst. destruct l; eexists; eexists; split; reflexivity. }
  destruct F as (c & r & F & ->).
  change (literal "{" ++ [10; 32; 32] ++ dump_items L ++ [10] ++ literal "}")
    with (123 :: 10 :: 32 :: 32 :: dump_items L ++ [10] ++ literal "}").
  set (tail := [10] ++ literal "}").
  assert (E3 : forall n, (length L <= n)%nat -> json_items n (dump_items L ++ tail) = Some (L, [])).
  { intros n Hn. unfold tail. rewrite <- (app_nil_r (literal "}")). apply json_items_dump; [subst; congruence | exact A' | exact Hn]. }
  pose proof (dump_items_length L) as E4. unfold loads.
  rewrite F in *. cbn [app json_space is_whitespace_c Z.eqb Pos.eqb orb] in *.
  rewrite E3 by (cbn [length] in *; rewrite app_length; lia). cbn [json_space].
  rewrite dict_of_fresh by exact N'. reflexivity.
Qed.

(** ** What is run *)

Lemma py_space_blank : forall c, py_space c = true <-> blank_char c.
Proof.
  intros c. unfold py_space, blank_char. rewrite orb_true_iff, andb_true_iff, Z.eqb_eq, !Z.leb_le. reflexivity.
Qed.

Lemma word_split : forall s, exists b, s = word s ++ b /\ (forall c, In c (word s) -> ~ blank_char c)
  /\ (b = [] \/ exists c b', b = c :: b' /\ blank_char c).
Proof.
  induction s as [|c s (b & E & H & B)]; [exists []; repeat split; [intros c [] | left; reflexivity]|]. cbn [word].
  destruct (py_space c) eqn:P.
  - exists (c :: s). split; [reflexivity|]. split; [intros x []|]. right. exists c, s. split; [reflexivity|].
    apply py_space_blank. exact P.
  - exists b. split; [cbn [app]; f_equal; exact E|]. split; [|exact B]. intros x [<-|I]; [|apply H; exact I].
    rewrite <- py_space_blank, P. discriminate.
Qed.

Lemma lstrip_split : forall s, exists a, s = a ++ lstrip s /\ Forall blank_char a
  /\ (lstrip s = [] \/ exists c t, lstrip s = c :: t /\ ~ blank_char c).
Proof.
  induction s as [|c s (a & E & F & H)]; [exists []; repeat split; [constructor | left; reflexivity]|]. cbn [lstrip].
  destruct (py_space c) eqn:P.
  - exists (c :: a). split; [cbn [app]; f_equal; exact E|]. split; [|exact H]. constructor; [apply py_space_blank; exact P | exact F].
  - exists []. split; [reflexivity|]. split; [constructor|]. right. exists c, s. split; [reflexivity|].
    rewrite <- py_space_blank, P. discriminate.
Qed.

Lemma first_word_starts : forall s w, first_word s = Some w -> starts_with_word s w.
Proof.
  intros s w H. unfold first_word in H. destruct (lstrip_split s) as (a & E & F & [N|(c & t & N & B)]).
  - rewrite N in H. discriminate.
  - rewrite N in H. injection H as <-. destruct (word_split (c :: t)) as (b & E2 & H2 & B2).
    exists a, b. split; [rewrite E at 1; rewrite N; rewrite E2 at 1; reflexivity|]. split.
    + cbn [word]. destruct (py_space c) eqn:P; [apply py_space_blank in P; contradiction | discriminate].
    + split; [exact F|]. split; assumption.
Qed.

Lemma first_word_ascii : forall s w, ascii_text s -> first_word s = Some w -> ascii_text w.
Proof.
  intros s w A H. apply first_word_starts in H as (a & b & -> & _). unfold ascii_text in *.
  rewrite !Forall_app in A. tauto.
Qed.

Lemma path_join_subdir : forall d k, plain_dir d -> relative k -> path_join d k = subdir d k.
Proof.
  intros d k (d' & c & -> & N) R. unfold path_join, subdir. rewrite rev_app_distr. cbn [rev app].
  apply Z.eqb_neq in N. rewrite N. destruct k as [|x k]; [reflexivity|].
  destruct (Z.eqb_spec x 47) as [->|]; [exfalso; apply (R k); reflexivity | reflexivity].
Qed.

Lemma subdir_inj : forall d k k', subdir d k = subdir d k' -> k = k'.
Proof. intros d k k' H. unfold subdir in H. apply app_inv_head in H. injection H as H. exact H. Qed.

Lemma filter_names : forall l, filter (fun k => negb (str_eqb k [])) l
  = filter (fun k : str => match k with [] => false | _ => true end) l.
Proof. intros l. apply filter_ext. intros [|c k]; reflexivity. Qed.

Section Runs.
Variable W : Type.
Variable popen : list str -> str -> W -> W * option str.
Variable order : dict str -> dict str.

Local Notation state := (state W).
Local Notation action_of A := (action_of W A).

(** [strict]: it only stops when a program fails *)
Definition stopped (strict : bool) (plan : list (str * list str)) (cs : list call) : Prop :=
  exists cs' c rest, cs = cs' ++ [c] /\ plan = map run_of cs ++ rest /\ Forall succeeded cs'
    /\ (strict = true -> call_out c = None).

Definition follows {A : Type} (strict : bool) (m : action_of A) (plan : list (str * list str)) (Q : A -> list call -> Prop) : Prop :=
  forall s : state, match m s with
  | Returned a s' => exists cs, calls _ s' = calls _ s ++ cs /\ carried_out plan cs /\ file _ s' = file _ s /\ Q a cs
  | Raised s' => exists cs, calls _ s' = calls _ s ++ cs /\ stopped strict plan cs /\ file _ s' = file _ s
  end.

Lemma follows_return : forall A b (a : A) (Q : A -> list call -> Prop), Q a [] -> follows b (return_ W a) [] Q.
Proof.
  intros A b a Q H s. exists []. rewrite app_nil_r. splits; [reflexivity | | reflexivity | exact H]. split; constructor.
Qed.

Lemma follows_run : forall b p c, follows b (run W popen p c) [(cwd p, cmd p ++ c)]
  (fun o cs => cs = [mkcall (cwd p) (cmd p ++ c) (Some o)] /\ exists w w', popen (cmd p ++ c) (cwd p) w = (w', Some o)).
Proof.
  intros b p c s. unfold run. destruct (popen (cmd p ++ c) (cwd p) (world _ s)) as (w, [o|]) eqn:E.
  - eexists. split; [reflexivity|]. split; [split; [reflexivity|]; constructor; [discriminate | constructor]|].
    split; [reflexivity|]. split; [reflexivity|]. eauto.
  - eexists. split; [reflexivity|]. split; [|reflexivity]. exists [], (mkcall (cwd p) (cmd p ++ c) None), [].
    splits; try reflexivity. constructor.
Qed.

Lemma carried_app : forall p q cs ds, carried_out p cs -> carried_out q ds -> carried_out (p ++ q) (cs ++ ds).
Proof. intros p q cs ds [A B] [C D]. split; [rewrite map_app; congruence | apply Forall_app; split; assumption]. Qed.

Lemma stopped_left : forall b p q cs, stopped b p cs -> stopped b (p ++ q) cs.
Proof.
  intros b p q cs (cs' & c & rest & E & P & F & N). exists cs', c, (rest ++ q). splits; try assumption.
  rewrite P, <- app_assoc. reflexivity.
Qed.
Lemma stopped_right : forall b p q cs ds, carried_out p cs -> stopped b q ds -> stopped b (p ++ q) (cs ++ ds).
Proof.
  intros b p q cs ds [A B] (cs' & c & rest & E & P & F & N). exists (cs ++ cs'), c, rest.
  splits; [rewrite E, app_assoc; reflexivity | rewrite P, map_app, <- app_assoc; congruence | apply Forall_app; split; assumption | exact N].
Qed.

Lemma follows_bind : forall A B b (m : action_of A) (f : A -> action_of B) p q (Q : A -> list call -> Prop) (R : B -> list call -> Prop),
  follows b m p Q -> (forall a cs, Q a cs -> follows b (f a) q (fun x ds => R x (cs ++ ds))) -> follows b (bind W m f) (p ++ q) R.
Proof.
  intros A B b m f p q Q R H K s. unfold bind. specialize (H s). destruct (m s) as [a s1|s1].
  - destruct H as (cs & C & O & F & X). specialize (K a cs X s1). destruct (f a s1) as [x s2|s2].
    + destruct K as (ds & C2 & O2 & F2 & Y). exists (cs ++ ds).
      splits; [rewrite C2, C, app_assoc; reflexivity | apply carried_app; assumption | congruence | exact Y].
    + destruct K as (ds & C2 & O2 & F2). exists (cs ++ ds).
      splits; [rewrite C2, C, app_assoc; reflexivity | apply stopped_right; assumption | congruence].
  - destruct H as (cs & C & O & F). exists cs. splits; [exact C | apply stopped_left; exact O | exact F].
Qed.

Lemma follows_impl : forall A b (m : action_of A) p (Q R : A -> list call -> Prop),
  (forall a cs, Q a cs -> R a cs) -> follows b m p Q -> follows b m p R.
Proof.
  intros A b m p Q R H K s. specialize (K s). destruct (m s); [|exact K].
  destruct K as (cs & C & O & F & X). exists cs. splits; auto.
Qed.

Lemma follows_bind' : forall A B b (m : action_of A) (f : A -> action_of B) p q,
  follows b m p (fun _ _ => True) -> (forall a, follows b (f a) q (fun _ _ => True)) -> follows b (bind W m f) (p ++ q) (fun _ _ => True).
Proof. intros A B b m f p q H K. eapply follows_bind; [exact H|]. intros a cs _. apply K. Qed.

Lemma follows_true : forall A b (m : action_of A) p (Q : A -> list call -> Prop),
  follows b m p Q -> follows b m p (fun _ _ => True).
Proof. intros A b m p Q. apply follows_impl. auto. Qed.

(** *** Checking out *)

Lemma follows_checkouts : forall git out l, plain_dir out -> Forall relative (map fst l) ->
  follows true (checkouts W popen (mkprocess [git] out) l) (checkout_all git out l) (fun _ _ => True).
Proof.
  intros git out l P. induction l as [|(k, v) l IH]; intros R; [apply follows_return; exact I|].
  inversion R; subst. cbn [checkouts checkout_all map].
  apply (follows_bind' _ _ _ _ _ [_] (checkout_all git out l)); [|intros _; apply IH; assumption].
  cbn [fst snd]. rewrite <- path_join_subdir by assumption. eapply follows_true. apply follows_run.
Qed.

Variables (here f git out repo ref : str).

Lemma follows_prepare : forall A b (k : unit -> action_of A) names q (Q : A -> list call -> Prop),
  follows b (k tt) q (fun a cs => forall pre, length pre = 3%nat -> Q a (pre ++ cs)) ->
  follows b
    (bind W (run W popen (mkprocess [git] here) [literal "clone"; repo; out]) (fun _ =>
     bind W (run W popen (in_dir (mkprocess [git] here) out) ([literal "submodule"; literal "init"; literal "--"]
       ++ filter (fun k => negb (str_eqb k [])) names)) (fun _ =>
     bind W (run W popen (in_dir (mkprocess [git] here) out) [literal "submodule"; literal "update"]) (fun _ => k tt))))
    (preparation here git repo out names ++ q) Q.
Proof.
  intros A b k names q Q H. unfold preparation. rewrite <- filter_names.
  match goal with |- follows _ _ ([?x; ?y; ?z] ++ q) _ => change ([x; y; z] ++ q) with ([x] ++ [y] ++ [z] ++ q) end.
  eapply follows_bind; [apply follows_run|]. intros o1 c1 [E1 _].
  eapply follows_bind; [apply follows_run|]. intros o2 c2 [E2 _].
  eapply follows_bind; [apply follows_run|]. intros o3 c3 [E3 _].
  eapply follows_impl; [|exact H]. intros a cs X. rewrite !app_assoc. apply X. subst. reflexivity.
Qed.

Lemma main_checkout : forall s t d,
  file _ s f = Some t -> loads t = Some d -> plain_dir out -> Forall relative (names_of (order d)) ->
  match main W popen order here (mkargs f (Some git) (Some out) (text "checkout") (Some repo) (Some ref)) s with
  | Returned _ s' => exists cs, calls _ s' = calls _ s ++ cs
      /\ carried_out (preparation here git repo out (names_of (order d)) ++ checkout_all git out (order d)) cs /\ file _ s' = file _ s
  | Raised s' => exists cs, calls _ s' = calls _ s ++ cs
      /\ stopped true (preparation here git repo out (names_of (order d)) ++ checkout_all git out (order d)) cs /\ file _ s' = file _ s
  end.
Proof.
  intros s t d F L P R.
  pose proof (follows_prepare _ true (fun _ => checkouts W popen (mkprocess [git] out) (order d)) (names_of (order d))
    (checkout_all git out (order d)) (fun _ _ => True)
    (follows_impl _ _ _ _ _ _ (fun _ _ _ _ _ => I) (follows_checkouts git out (order d) P R)) s) as H.
  unfold main. cbn [a_action dep_json a_git a_out boost_repository a_ref default].
  replace (str_eqb (text "checkout") (literal "update")) with false by (symmetry; vm_compute; reflexivity).
  replace (str_eqb (text "checkout") (literal "checkout")) with true by (symmetry; vm_compute; reflexivity).
  cbn [orb]. unfold build_environment, bind at 1, load_json. rewrite F, L.
  replace (str_eqb (text "checkout") (literal "update")) with false by (symmetry; vm_compute; reflexivity).
  replace (str_eqb (text "checkout") (literal "checkout")) with true by (symmetry; vm_compute; reflexivity).
  match type of H with match ?m with _ => _ end => match goal with |- match ?m' with _ => _ end => change m' with m end; destruct m end.
  - destruct H as (cs & ? & ? & ? & _). exists cs. auto.
  - exact H.
Qed.

(** *** Updating *)

(** [l] has what the programs printed *)
Definition heads_from (out' : str) (l : list (str * str)) (cs : list call) : Prop :=
  Forall (fun x => ascii_text (snd x) /\ exists c o, In c cs /\ run_of c = (subdir out' (fst x), [git; text "show-ref"; ref])
    /\ call_out c = Some o /\ starts_with_word o (snd x)) l.

Definition ascii_output : Prop := forall args dir w w' o, popen args dir w = (w', Some o) -> ascii_text o.

Lemma follows_head : forall k, ascii_output -> plain_dir out -> relative k ->
  follows false (head_of_master W popen (in_subdir (mkprocess [git] out) k) ref)
    [(subdir out k, [git; text "fetch"]); (subdir out k, [git; text "show-ref"; ref])]
    (fun h cs => heads_from out [(k, h)] cs).
Proof.
  intros k AO P R. unfold head_of_master, in_subdir, in_dir. cbn [cwd cmd]. rewrite path_join_subdir by assumption.
  match goal with |- follows _ _ [?x; ?y] _ => change [x; y] with ([x] ++ [y]) end.
  eapply follows_bind; [apply follows_run|]. intros o1 c1 [E1 _].
  rewrite <- (app_nil_r [(subdir out k, [git; text "show-ref"; ref])]).
  intros s. pose proof (follows_run false (mkprocess [git] (subdir out k)) [literal "show-ref"; ref] s) as H.
  unfold bind. destruct (run W popen _ _ s) as [o s1|s1].
  - destruct H as (cs & C & O & F & (E2 & w & w' & X)). cbn [cwd cmd] in *.
    destruct (first_word o) as [h|] eqn:FW.
    + exists cs. rewrite app_nil_r. splits; [exact C | exact O | exact F |]. constructor; [|constructor].
      split; [eapply first_word_ascii; [|exact FW]; eapply AO; exact X|].
      exists (mkcall (subdir out k) ([git] ++ [literal "show-ref"; ref]) (Some o)), o.
      splits; [apply in_or_app; right; rewrite E2; left; reflexivity | reflexivity | reflexivity | apply first_word_starts; exact FW].
    + exists cs. splits; [exact C | | exact F]. destruct O as [O _]. subst cs. eexists [], _, [].
      splits; [reflexivity | reflexivity | constructor | discriminate].
  - destruct H as (cs & C & O & F). exists cs. rewrite app_nil_r. splits; assumption.
Qed.

Lemma follows_heads : forall l, ascii_output -> plain_dir out -> Forall relative (map fst l) ->
  follows false (heads W popen (mkprocess [git] out) ref l) (ask_all git out ref l)
    (fun r cs => map fst r = map fst l /\ heads_from out r cs).
Proof.
  intros l AO P. induction l as [|(k, v) l IH]; intros R.
  - apply follows_return. split; [reflexivity | constructor].
  - inversion R; subst. cbn [heads ask_all map concat]. fold (ask_all git out ref l).
    eapply follows_bind; [apply follows_head; assumption|]. intros h cs X.
    rewrite <- (app_nil_r (ask_all git out ref l)).
    eapply follows_bind; [apply IH; assumption|]. intros r ds [E Y]. apply follows_return.
    split; [cbn [map fst]; f_equal; exact E|]. rewrite app_nil_r. inversion X as [|? ? (A1 & c & o & I1 & X1) _]; subst.
    constructor.
    + split; [exact A1|]. exists c, o. split; [apply in_or_app; left; exact I1 | exact X1].
    + eapply Forall_impl; [|exact Y]. intros x (A2 & c' & o' & I2 & X2). split; [exact A2|]. exists c', o'.
      split; [apply in_or_app; right; exact I2 | exact X2].
Qed.

Lemma main_update : forall s t d,
  file _ s f = Some t -> loads t = Some d -> plain_dir out -> Forall relative (names_of (order d)) -> ascii_output ->
  let plan := preparation here git repo out (names_of (order d)) ++ ask_all git out ref (order d) in
  match main W popen order here (mkargs f (Some git) (Some out) (text "update") (Some repo) (Some ref)) s with
  | Returned _ s' => exists cs l, calls _ s' = calls _ s ++ cs /\ carried_out plan cs
      /\ map fst l = map fst (order d) /\ heads_from out l cs
      /\ file _ s' f = Some (dumps l) /\ forall g, g <> f -> file _ s' g = file _ s g
  | Raised s' => exists cs, calls _ s' = calls _ s ++ cs /\ stopped false plan cs
      /\ file _ s' f = Some (if Nat.leb (length cs) 3 then t else [])
      /\ forall g, g <> f -> file _ s' g = file _ s g
  end.
Proof.
  intros s t d F L P R AO plan.
  unfold main. cbn [a_action dep_json a_git a_out boost_repository a_ref default].
  replace (str_eqb (text "update") (literal "update")) with true by (symmetry; vm_compute; reflexivity).
  cbn [orb]. unfold build_environment, bind at 1, load_json. rewrite F, L.
  replace (str_eqb (text "update") (literal "update")) with true by (symmetry; vm_compute; reflexivity).
  pose proof (follows_prepare unit false (fun _ => return_ W tt) (names_of (order d)) []
    (fun _ cs => length cs = 3%nat)
    (follows_return _ _ _ _ (fun pre E => eq_trans (f_equal (@length call) (app_nil_r pre)) E)) s) as H.
  rewrite app_nil_r in H.
  set (k := fun _ : str => bind W (write W f []) (fun _ => bind W (heads W popen (in_dir (mkprocess [git] here) out) ref (order d)) (fun l => write W f (dumps l)))).
  set (pre := fun A (k : str -> action_of A) =>
    bind W (run W popen (mkprocess [git] here) [literal "clone"; repo; out]) (fun _ =>
     bind W (run W popen (in_dir (mkprocess [git] here) out) ([literal "submodule"; literal "init"; literal "--"]
       ++ filter (fun k => negb (str_eqb k [])) (names_of (order d)))) (fun _ =>
     bind W (run W popen (in_dir (mkprocess [git] here) out) [literal "submodule"; literal "update"]) k))) in *.
  change (match pre unit (fun _ => return_ W tt) s with
    | Returned a s' => exists cs, calls _ s' = calls _ s ++ cs /\ carried_out (preparation here git repo out (names_of (order d))) cs
        /\ file _ s' = file _ s /\ length cs = 3%nat
    | Raised s' => exists cs, calls _ s' = calls _ s ++ cs /\ stopped false (preparation here git repo out (names_of (order d))) cs
        /\ file _ s' = file _ s end) in H.
  match goal with |- match ?m with _ => _ end => change m with (pre unit k s) end.
  assert (X : pre unit k s = match pre unit (fun _ => return_ W tt) s with Returned _ s1 => k [] s1 | Raised s1 => Raised s1 end).
  { unfold pre, bind, return_. destruct (run W popen _ _ s) as [o1 s1|s1]; [|reflexivity].
    destruct (run W popen _ _ s1) as [o2 s2|s2]; [|reflexivity].
    destruct (run W popen _ _ s2) as [o3 s3|s3]; reflexivity. }
  rewrite X. clear X. destruct (pre unit (fun _ => return_ W tt) s) as [? s1|s1]; clear pre.
  - destruct H as (cs & C & O & FE & LE). unfold k, bind, write, in_dir. cbn [cmd].
    pose proof (follows_heads (order d) AO P R
      (mkstate W (world _ s1) (fun g => if str_eqb g f then Some [] else file _ s1 g) (calls _ s1))) as K.
    destruct (heads W popen (mkprocess [git] out) ref (order d) _) as [l s2|s2]; cbn [calls file world] in K.
    + destruct K as (ds & C2 & O2 & F2 & E & Y). exists (cs ++ ds), l.
      splits; cbn [calls file].
      * rewrite C2, C, app_assoc. reflexivity.
      * apply carried_app; assumption.
      * exact E.
      * eapply Forall_impl; [|exact Y]. intros x (A2 & c' & o' & I2 & X2). split; [exact A2|]. exists c', o'.
        split; [apply in_or_app; right; exact I2 | exact X2].
      * rewrite str_eqb_refl. reflexivity.
      * intros g N. rewrite (str_eqb_neq _ _ N), F2, (str_eqb_neq _ _ N), FE. reflexivity.
    + destruct K as (ds & C2 & O2 & F2). exists (cs ++ ds).
      assert (LD : (1 <= length ds)%nat) by (destruct O2 as (cs' & c & ? & -> & _); rewrite app_length; cbn; lia).
      splits.
      * rewrite C2, C, app_assoc. reflexivity.
      * apply stopped_right; assumption.
      * rewrite F2, str_eqb_refl, app_length. replace (Nat.leb _ 3) with false; [reflexivity|]. symmetry. apply Nat.leb_gt. lia.
      * intros g N. rewrite F2, (str_eqb_neq _ _ N), FE. reflexivity.
  - destruct H as (cs & C & O & FE). exists cs. splits; [exact C | apply stopped_left; exact O | | intros g _; rewrite FE; reflexivity].
    rewrite FE, F. replace (Nat.leb (length cs) 3) with true; [reflexivity|]. symmetry. apply Nat.leb_le.
    destruct O as (cs' & c & rest & E & Pl & _). apply (f_equal (@length _)) in Pl. rewrite app_length, map_length in Pl.
    unfold preparation in Pl. cbn [length] in Pl. lia.
Qed.

(** *** What is checked out afterwards *)

Variable head : W -> str -> option str.

Lemma checkouts_heads : forall l s s', checks_out popen git head -> plain_dir out -> Forall relative (map fst l) -> NoDup (map fst l) ->
  checkouts W popen (mkprocess [git] out) l s = Returned tt s' ->
  (forall k v, In (k, v) l -> head (world _ s') (subdir out k) = Some v)
  /\ forall d, ~ In d (map (fun x => subdir out (fst x)) l) -> head (world _ s') d = head (world _ s) d.
Proof.
  intros l s s' G P. revert s. induction l as [|(k, v) l IH]; intros s R N H.
  - injection H as <-. split; [intros k v []|reflexivity].
  - inversion R; subst. inversion N; subst. cbn [checkouts] in H. unfold bind in H.
    unfold run in H. unfold in_subdir, in_dir in H. cbn [cwd cmd] in H.
    rewrite path_join_subdir in H by assumption.
    destruct (popen _ _ _) as (w, [o|]) eqn:E; [|discriminate].
    destruct (G _ _ _ _ _ E) as [G1 G2]. destruct (IH _ H3 H5 H) as [I1 I2]. cbn [world] in I2. split.
    + intros k' v' [Q|I]; [|apply I1; exact I]. injection Q as <- <-. rewrite I2; [exact G1|].
      intros I. apply in_map_iff in I as (x & Q & I). apply subdir_inj in Q. subst k. apply H4. apply in_map. exact I.
    + intros d' N'. rewrite I2 by (intros I; apply N'; right; exact I). apply G2. intros ->. apply N'. left. reflexivity.
Qed.

Lemma main_checkout_heads : forall s t d s', checks_out popen git head ->
  file _ s f = Some t -> loads t = Some d -> plain_dir out -> Forall relative (names_of (order d)) -> NoDup (map fst (order d)) ->
  main W popen order here (mkargs f (Some git) (Some out) (text "checkout") (Some repo) (Some ref)) s = Returned tt s' ->
  forall k v, In (k, v) (order d) -> head (world _ s') (subdir out k) = Some v.
Proof.
  intros s t d s' G F L P R N H. unfold main in H. cbn [a_action dep_json a_git a_out boost_repository a_ref default] in H.
  replace (str_eqb (text "checkout") (literal "update")) with false in H by (symmetry; vm_compute; reflexivity).
  replace (str_eqb (text "checkout") (literal "checkout")) with true in H by (symmetry; vm_compute; reflexivity).
  cbn [orb] in H. unfold build_environment in H. unfold bind at 1 in H. unfold load_json in H. rewrite F, L in H.
  replace (str_eqb (text "checkout") (literal "update")) with false in H by (symmetry; vm_compute; reflexivity).
  replace (str_eqb (text "checkout") (literal "checkout")) with true in H by (symmetry; vm_compute; reflexivity).
  unfold bind in H. destruct (run W popen _ _ s) as [o1 s1|s1]; [|discriminate].
  destruct (run W popen _ _ s1) as [o2 s2|s2]; [|discriminate].
  destruct (run W popen _ _ s2) as [o3 s3|s3]; [|discriminate].
  apply (checkouts_heads (order d) s3 s' G P R N H).
Qed.
End Runs.

(** ** Dictionaries that are read *)

Lemma dict_set_names : forall k v (d : dict str), NoDup (map fst d) -> NoDup (map fst (dict_set k v d))
  /\ forall n, In n (map fst (dict_set k v d)) -> n = k \/ In n (map fst d).
Proof.
  intros k v d. induction d as [|(n, x) d IH]; intros N; cbn [dict_set map].
  - split; [constructor; [intros []|constructor] | intros m [<-|[]]; left; reflexivity].
  - inversion N; subst. destruct (IH H2) as [I1 I2]. destruct (str_eqb n k) eqn:E; cbn [map fst].
    + split; [exact N | intros m [<-|I]; [right; left; reflexivity | right; right; exact I]].
    + split.
      * constructor; [|exact I1]. intros I. destruct (I2 _ I) as [->|I']; [rewrite str_eqb_refl in E; discriminate | contradiction].
      * intros m [<-|I]; [right; left; reflexivity|]. destruct (I2 _ I); [left | right; right]; assumption.
Qed.

Lemma dict_of_nodup : forall l, NoDup (map fst (dict_of l)).
Proof.
  intros l. unfold dict_of. assert (H : forall d : dict str, NoDup (map fst d) -> NoDup (map fst (fold_left (fun d x => dict_set (fst x) (snd x) d) l d))).
  { induction l as [|x l IH]; intros d N; [exact N|]. cbn [fold_left]. apply IH. apply dict_set_names. exact N. }
  apply H. constructor.
Qed.

Lemma loads_nodup : forall t d, loads t = Some d -> NoDup (map fst d).
Proof.
  intros t d H. unfold loads in H. destruct (json_space t) as [|c r]; [discriminate|]. destruct (c =? 123); [|discriminate].
  destruct (json_space r) as [|e r1]; [discriminate|]. destruct (e =? 125).
  - destruct (json_space r1); [injection H as <-; constructor | discriminate].
  - destruct (json_items _ _) as [(l, r2)|]; [|discriminate]. destruct (json_space r2); [|discriminate].
    injection H as <-. apply dict_of_nodup.
Qed.
