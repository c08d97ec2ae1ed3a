(** C84: the script that prepares the build environment. *)

From Coq Require Import ZArith List Bool Lia Permutation Sorted.
From Verif Require Import Base Spec Generate Environment SpecEnvironment Proofs_Environment.
Import ListNotations.
Open Scope Z_scope.

(** The options given on the command line. *)
Definition options (f git out action repo ref : str) : arguments :=
  mkargs f (Some git) (Some out) action (Some repo) (Some ref).

Lemma order_names : forall order d, some_order order -> Permutation (names_of (order d)) (names_of d).
Proof. intros order d O. apply Permutation_map. apply O. Qed.
Lemma order_relative : forall order d, some_order order -> Forall relative (names_of d) -> Forall relative (names_of (order d)).
Proof. intros order d O R. eapply Permutation_Forall; [apply Permutation_sym, order_names; exact O | exact R]. Qed.

(** Checking out: the programs are run one after the other as planned, until one fails.
    No file is changed. *)
Theorem C84_checkout : forall W popen order here f git out repo ref s t d,
  file W s f = Some t -> loads t = Some d -> plain_dir out -> Forall relative (names_of d) -> some_order order ->
  let plan := preparation here git repo out (names_of (order d)) ++ checkout_all git out (order d) in
  match main W popen order here (options f git out (text "checkout") repo ref) s with
  | Returned _ s' => exists cs, calls _ s' = calls _ s ++ cs /\ carried_out plan cs /\ file _ s' = file _ s
  | Raised s' => exists cs, calls _ s' = calls _ s ++ cs /\ broken_off plan cs /\ file _ s' = file _ s
  end.
Proof.
  intros W popen order here f git out repo ref s t d F L P R O plan.
  pose proof (main_checkout W popen order here f git out repo ref s t d F L P (order_relative _ _ O R)) as H.
  unfold options. destruct (main _ _ _ _ _ s); [exact H|].
  destruct H as (cs & C & (cs' & c & rest & E & Q & X & N) & FE). exists cs. split; [exact C|]. split; [|exact FE].
  exists cs', c, rest. auto.
Qed.

(** When git does what it is told, every submodule that is listed has the commit
    that is listed, whatever the order of the dictionary. *)
Theorem C84_commits : forall W popen order here f git out repo ref head s t d s',
  checks_out popen git head ->
  file W s f = Some t -> loads t = Some d -> plain_dir out -> Forall relative (names_of d) -> some_order order ->
  main W popen order here (options f git out (text "checkout") repo ref) s = Returned tt s' ->
  forall k v, In (k, v) d -> head (world _ s') (subdir out k) = Some v.
Proof.
  intros W popen order here f git out repo ref head s t d s' G F L P R O H k v I.
  eapply main_checkout_heads; try eassumption.
  - apply order_relative; assumption.
  - eapply Permutation_NoDup; [apply Permutation_sym, order_names; exact O | eapply loads_nodup; exact L].
  - eapply Permutation_in; [apply Permutation_sym; apply O | exact I].
Qed.

(** Updating: when it succeeds, the file can be read and lists the same submodules, in the
    order of their names, each with the first word that git printed in its directory. *)
Theorem C84_update : forall W popen order here f git out repo ref s t d s',
  (forall args dir w w' o, popen args dir w = (w', Some o) -> ascii_text o) ->
  file W s f = Some t -> loads t = Some d -> plain_dir out -> Forall relative (names_of d) ->
  Forall ascii_text (names_of d) -> some_order order ->
  main W popen order here (options f git out (text "update") repo ref) s = Returned tt s' ->
  exists cs t' d', calls _ s' = calls _ s ++ cs
    /\ carried_out (preparation here git repo out (names_of (order d)) ++ ask_all git out ref (order d)) cs
    /\ file _ s' f = Some t' /\ (forall g, g <> f -> file _ s' g = file _ s g)
    /\ loads t' = Some d' /\ Permutation (names_of d') (names_of d) /\ StronglySorted before (names_of d')
    /\ forall k v, In (k, v) d' -> exists c o, In c cs /\ run_of c = (subdir out k, [git; text "show-ref"; ref])
         /\ call_out c = Some o /\ starts_with_word o v.
Proof.
  intros W popen order here f git out repo ref s t d s' AO F L P R AN O H.
  pose proof (main_update W popen order here f git out repo ref s t d F L P (order_relative _ _ O R) AO) as K.
  unfold options in H. rewrite H in K. destruct K as (cs & l & C & CO & E & HF & FE & OF).
  assert (PN : Permutation (map fst l) (names_of d)) by (rewrite E; apply order_names; exact O).
  assert (N : NoDup (map fst l)) by (eapply Permutation_NoDup; [apply Permutation_sym; exact PN | eapply loads_nodup; exact L]).
  assert (A : ascii_items l).
  { apply Forall_forall. intros x I. split.
    - assert (AN' : Forall ascii_text (map fst l)) by (eapply Permutation_Forall; [apply Permutation_sym; exact PN | exact AN]).
      rewrite Forall_forall in AN'. apply AN'. apply in_map. exact I.
    - unfold heads_from in HF. rewrite Forall_forall in HF. apply HF. exact I. }
  exists cs, (dumps l), (sort_items l). split; [exact C|]. split; [exact CO|]. split; [exact FE|]. split; [exact OF|].
  split; [apply dumps_sorted; assumption|]. split; [|split].
  - eapply Permutation_trans; [apply Permutation_map, sort_items_perm | exact PN].
  - pose proof (sort_items_sorted l N) as S. unfold names_of. clear - S.
    induction S as [|x m S IH X]; [constructor|]. cbn [map]. constructor; [exact IH|].
    apply Forall_forall. intros y I. apply in_map_iff in I as (z & <- & I). rewrite Forall_forall in X.
    apply before_less. apply (X z I).
  - intros k v I. assert (I' : In (k, v) l) by (eapply Permutation_in; [apply sort_items_perm | exact I]).
    unfold heads_from in HF. rewrite Forall_forall in HF. destruct (HF _ I') as (_ & c & o & X). exists c, o. exact X.
Qed.

(** When it fails after the preparation, the file is empty, otherwise it is as before. *)
Theorem C84_failed_update : forall W popen order here f git out repo ref s t d s',
  (forall args dir w w' o, popen args dir w = (w', Some o) -> ascii_text o) ->
  file W s f = Some t -> loads t = Some d -> plain_dir out -> Forall relative (names_of d) -> some_order order ->
  main W popen order here (options f git out (text "update") repo ref) s = Raised s' ->
  exists cs rest, calls _ s' = calls _ s ++ cs
    /\ preparation here git repo out (names_of (order d)) ++ ask_all git out ref (order d) = map run_of cs ++ rest
    /\ file _ s' f = Some (if Nat.leb (length cs) 3 then t else [])
    /\ forall g, g <> f -> file _ s' g = file _ s g.
Proof.
  intros W popen order here f git out repo ref s t d s' AO F L P R O H.
  pose proof (main_update W popen order here f git out repo ref s t d F L P (order_relative _ _ O R) AO) as K.
  unfold options in H. rewrite H in K. destruct K as (cs & C & (cs' & c & rest & E & Q & X & N) & FE & OF).
  exists cs, rest. auto.
Qed.

(** With an empty file (or none, or one that is not a list of submodules) nothing is run. *)
Theorem C84_unreadable : forall W popen order here a s,
  (forall t, file W s (dep_json a) = Some t -> loads t = None) ->
  main W popen order here a s = Raised s.
Proof.
  intros W popen order here a s H. unfold main. destruct (_ || _); [|reflexivity].
  unfold build_environment, bind at 1, load_json. destruct (file W s (dep_json a)) as [t|]; [|reflexivity].
  rewrite (H t eq_refl). reflexivity.
Qed.

(** Any other action is refused before anything is run. *)
Theorem C84_other_action : forall W popen order here a s,
  a_action a <> text "update" -> a_action a <> text "checkout" ->
  main W popen order here a s = Raised s.
Proof.
  intros W popen order here a s U C. unfold main. rewrite !Proofs_Generate.str_eqb_neq; [reflexivity | exact C | exact U].
Qed.

(** What is not given on the command line *)
Theorem C84_defaults : forall W popen order here f action s,
  main W popen order here (mkargs f None None action None None) s
  = main W popen order here (options f (text "git") (text "boost") action
      (text "https://github.com/boostorg/boost.git") (text "origin/master")) s.
Proof. reflexivity. Qed.

(** Whatever dictionary is written can be read again, with its items sorted. *)
Theorem C84_read_back : forall d, NoDup (names_of d) -> Forall (fun x => ascii_text (fst x) /\ ascii_text (snd x)) d ->
  exists d', loads (dumps d) = Some d' /\ Permutation d' d /\ StronglySorted before (names_of d').
Proof.
  intros d N A. exists (sort_items d). split; [apply dumps_sorted; assumption|]. split; [apply sort_items_perm|].
  pose proof (sort_items_sorted d N) as S. unfold names_of. clear - S.
  induction S as [|x m S IH X]; [constructor|]. cbn [map]. constructor; [exact IH|].
  apply Forall_forall. intros y I. apply in_map_iff in I as (z & <- & I). rewrite Forall_forall in X.
  apply before_less. apply (X z I).
Qed.

(** Updating and then, elsewhere, checking out: the submodules have the commits that git
    printed. *)
Theorem C84_update_checkout : forall W popen order here f git out repo ref s t d s1 W' popen' order' here' out' repo' ref' head s2 s3,
  (forall args dir w w' o, popen args dir w = (w', Some o) -> ascii_text o) ->
  file W s f = Some t -> loads t = Some d -> plain_dir out -> Forall relative (names_of d) ->
  Forall ascii_text (names_of d) -> some_order order ->
  main W popen order here (options f git out (text "update") repo ref) s = Returned tt s1 ->
  checks_out popen' git head -> plain_dir out' -> some_order order' -> file W' s2 f = file W s1 f ->
  main W' popen' order' here' (options f git out' (text "checkout") repo' ref') s2 = Returned tt s3 ->
  forall k, In k (names_of d) -> exists v c o, head (world _ s3) (subdir out' k) = Some v
    /\ In c (calls _ s1) /\ run_of c = (subdir out k, [git; text "show-ref"; ref])
    /\ call_out c = Some o /\ starts_with_word o v.
Proof.
  intros W popen order here f git out repo ref s t d s1 W' popen' order' here' out' repo' ref' head s2 s3
    AO F L P R AN O H G P' O' FF H' k I.
  destruct (C84_update _ _ _ _ _ _ _ _ _ _ _ _ _ AO F L P R AN O H) as (cs & t' & d' & C & CO & FE & OF & L' & PN & S & X).
  assert (I' : In k (names_of d')) by (eapply Permutation_in; [apply Permutation_sym; exact PN | exact I]).
  apply in_map_iff in I' as ((k', v) & Q & I'). cbn [fst] in Q. subst k'. destruct (X k v I') as (c & o & IC & RC & OC & SW).
  exists v, c, o. split; [|split; [rewrite C; apply in_or_app; right; exact IC | auto]].
  eapply C84_commits; [exact G | rewrite FF; exact FE | exact L' | exact P' | | exact O' | exact H' | exact I'].
  eapply Permutation_Forall; [apply Permutation_sym; exact PN | exact R].
Qed.

(** A git for the examples: its world are the commits that are checked out. *)
Definition sim_world := list (str * str).
Fixpoint sim_head (w : sim_world) (d : str) : option str :=
  match w with
  | [] => None
  | (d', c) :: w' => if str_eqb d d' then Some c else sim_head w' d
  end.
Definition sim_git (fails : list str -> bool) (args : list str) (dir : str) (w : sim_world) : sim_world * option str :=
  if fails args then (w, None)
  else
    match args with
    | [_; a; c] =>
        if str_eqb a (text "checkout") then ((dir, c) :: w, Some [])
        else if str_eqb a (text "show-ref") then (w, Some (text "4300db5d refs/remotes/origin/master"))
        else (w, Some [])
    | _ => (w, Some [])
    end.
Definition never (args : list str) : bool := false.
Definition no_fetch (args : list str) : bool :=
  match args with [_; a] => str_eqb a (text "fetch") | _ => false end.
Definition some_deps : str :=
  text "{ ""libs/mpl"": ""8d2ed32a"", """": ""043895"" }".
Definition some_state : state sim_world := mkstate _ [] (fun f => if str_eqb f (text "deps.json") then Some some_deps else None) [].
Definition some_options (action : str) : arguments :=
  options (text "deps.json") (text "git") (text "boost") action (text "url") (text "origin/master").

(** It is not true that a failed update leaves the file of the dependencies alone: it is
    emptied, and then nothing can be done with it any more. *)
Theorem C84_failed_update_refuted : exists W popen order here a s s',
  main W popen order here a s = Raised s'
  /\ (exists t d, file W s (dep_json a) = Some t /\ loads t = Some d /\ d <> [])
  /\ file W s' (dep_json a) = Some []
  /\ forall popen' order' here' a', dep_json a' = dep_json a -> main W popen' order' here' a' s' = Raised s'.
Proof.
  exists sim_world, (sim_git no_fetch), (fun d => d), (text "home"), (some_options (text "update")), some_state.
  exists (match main sim_world (sim_git no_fetch) (fun d => d) (text "home") (some_options (text "update")) some_state with
     | Returned _ s => s | Raised s => s end).
  split; [vm_compute; reflexivity|]. split.
  - exists some_deps, [(text "libs/mpl", text "8d2ed32a"); ([], text "043895")]. split; [reflexivity|].
    split; [vm_compute; reflexivity | discriminate].
  - assert (E : file sim_world (match main sim_world (sim_git no_fetch) (fun d => d) (text "home") (some_options (text "update")) some_state with
      | Returned _ s => s | Raised s => s end) (text "deps.json") = Some []) by (vm_compute; reflexivity).
    split; [exact E|]. intros popen' order' here' a' Q. apply C84_unreadable. intros t F.
    rewrite Q in F. change (dep_json (some_options (text "update"))) with (text "deps.json") in F. rewrite E in F.
    injection F as <-. reflexivity.
Qed.

(** It is not true that only submodules that are listed are initialised: without any, git is
    not told any names (and then takes all of them). *)
Theorem C84_only_listed_refuted : exists W popen order here a s s' git dir d t,
  file W s (dep_json a) = Some t /\ loads t = Some d /\ d <> []
  /\ main W popen order here a s = Returned tt s'
  /\ In (dir, [git; text "submodule"; text "init"; text "--"]) (map run_of (calls _ s')).
Proof.
  pose (s := mkstate sim_world [] (fun f => if str_eqb f (text "deps.json") then Some (text "{"""": ""043895""}") else None) []).
  exists sim_world, (sim_git never), (fun d => d), (text "home"), (some_options (text "checkout")), s.
  exists (match main sim_world (sim_git never) (fun d => d) (text "home") (some_options (text "checkout")) s with
     | Returned _ s => s | Raised s => s end).
  exists (text "git"), (text "boost"), [([], text "043895")], (text "{"""": ""043895""}").
  split; [reflexivity|]. split; [vm_compute; reflexivity|]. split; [discriminate|]. split; [vm_compute; reflexivity|].
  vm_compute. right. left. reflexivity.
Qed.

(** The file of the library can be read, its names are relative, and it is what the script
    writes, with a newline at the end. *)
Theorem C84_shipped : exists d, loads shipped_deps = Some d /\ shipped_deps = dumps d ++ [10]
  /\ In (text "libs/mpl") (names_of d) /\ In [] (names_of d) /\ Forall relative (names_of d).
Proof.
  assert (E : forallb (fun k : str => match k with c :: _ => negb (c =? 47) | [] => true end)
    (match loads shipped_deps with Some d => names_of d | None => [] end) = true) by (vm_compute; reflexivity).
  destruct (loads shipped_deps) as [d|] eqn:L; [|exfalso; vm_compute in L; discriminate].
  assert (X : shipped_deps = match loads shipped_deps with Some d => dumps d ++ [10] | None => [] end) by (vm_compute; reflexivity).
  assert (Y : existsb (str_eqb (text "libs/mpl")) (match loads shipped_deps with Some d => names_of d | None => [] end) = true
    /\ existsb (str_eqb []) (match loads shipped_deps with Some d => names_of d | None => [] end) = true)
    by (split; vm_compute; reflexivity).
  rewrite L in X, Y. exists d. split; [reflexivity|]. split; [exact X|].
  destruct Y as [Y Z]. apply existsb_exists in Y as (k & I & Q), Z as (k' & I' & Q').
  apply Proofs_Generate.str_eqb_eq in Q, Q'. subst k k'. split; [exact I|]. split; [exact I'|].
  apply Forall_forall. intros k J. rewrite forallb_forall in E. specialize (E k J). intros t ->. discriminate E.
Qed.

(** The hypotheses hold for the git of the examples, and both actions succeed. *)
Example C84_ex_git : checks_out (sim_git never) (text "git") sim_head
  /\ (forall args dir w w' o, sim_git never args dir w = (w', Some o) -> ascii_text o)
  /\ plain_dir (text "boost") /\ some_order (fun d => d) /\ Forall relative [text "libs/mpl"; []].
Proof.
  split; [|split; [|split; [|split]]].
  - intros c d w w' o H. change (((d, c) :: w, Some []) = (w', Some o)) in H. injection H as <- _. split.
    + cbn [sim_head]. rewrite Proofs_Generate.str_eqb_refl. reflexivity.
    + intros d' N. cbn [sim_head]. rewrite Proofs_Generate.str_eqb_neq by exact N. reflexivity.
  - intros args dir w w' o H. unfold sim_git, never in H.
    destruct args as [|x [|a [|c [|y args]]]]; try (injection H as _ <-; constructor).
    destruct (str_eqb a (text "checkout")); [injection H as _ <-; constructor|].
    destruct (str_eqb a (text "show-ref")); injection H as _ <-; [|constructor].
    apply Forall_forall. intros z Z. vm_compute in Z. repeat (destruct Z as [<-|Z]; [split; [discriminate | reflexivity]|]). destruct Z.
  - exists (text "boos"), 116. split; [reflexivity | discriminate].
  - intros d. apply Permutation_refl.
  - repeat constructor; intros t; discriminate.
Qed.

Example C84_ex_checkout : match main sim_world (sim_git never) (@rev _) (text "home") (some_options (text "checkout")) some_state with
  | Returned _ s' =>
      map run_of (calls _ s') =
      [ (text "home", [text "git"; text "clone"; text "url"; text "boost"]);
        (text "boost", [text "git"; text "submodule"; text "init"; text "--"; text "libs/mpl"]);
        (text "boost", [text "git"; text "submodule"; text "update"]);
        (text "boost/", [text "git"; text "checkout"; text "043895"]);
        (text "boost/libs/mpl", [text "git"; text "checkout"; text "8d2ed32a"]) ]
      /\ sim_head (world _ s') (text "boost/libs/mpl") = Some (text "8d2ed32a")
  | Raised _ => False
  end.
Proof. vm_compute. split; reflexivity. Qed.

Example C84_ex_update : match main sim_world (sim_git never) (fun d => d) (text "home") (some_options (text "update")) some_state with
  | Returned _ s' => file _ s' (text "deps.json")
      = Some (text "{" ++ [10] ++ text "  """": ""4300db5d"", " ++ [10] ++ text "  ""libs/mpl"": ""4300db5d""" ++ [10] ++ text "}")
  | Raised _ => False
  end.
Proof. vm_compute. reflexivity. Qed.

Example C84_ex_escapes : loads (dumps [([34; 92; 10; 127; 0], [])]) = Some [([34; 92; 10; 127; 0], [])].
Proof. vm_compute. reflexivity. Qed.

Print Assumptions C84_checkout.
Print Assumptions C84_commits.
Print Assumptions C84_update.
Print Assumptions C84_failed_update.
Print Assumptions C84_unreadable.
Print Assumptions C84_other_action.
Print Assumptions C84_defaults.
Print Assumptions C84_read_back.
Print Assumptions C84_update_checkout.
Print Assumptions C84_failed_update_refuted.
Print Assumptions C84_only_listed_refuted.
Print Assumptions C84_shipped.
