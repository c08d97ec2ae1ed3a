(** Proofs about the extraction of code snippets from the guide. *)

From Coq Require Import ZArith List Bool Lia.
From Verif Require Import Base Messages Spec Benchmark SpecBenchmark Proofs_Benchmark
  Generate.
Import ListNotations.
Open Scope Z_scope.

(** ** The loop as a transducer *)

Record st : Type := {
  s_cpp : bool; s_code : list str; s_n : nat; s_ex : bool; s_skip : bool
}.

Definition examples_header : str := literal "[section Copy-paste friendly code examples]".
Definition link_mark : str := literal "copy-paste friendly version".
Definition is_header (l : str) : bool := contains examples_header l.
Definition is_link (l : str) : bool := contains link_mark l.
Definition is_end (l : str) : bool := contains (literal "endsect") l.
Definition is_code (l : str) : bool := starts (literal "  ") l.
Definition is_prompt (l : str) : bool :=
  starts (literal "  > ") l || starts (literal "  ...> ") l.

Definition block_end (base : str) (n : nat) (l : str) : list str :=
  nl :: map (include_line base) (seq 0 n) ++ [nl; l].

(** The new state, the lines written and the snippet written. *)
Definition step (base : str) (s : st) (l : str) : option (st * list str * option (list str)) :=
  if blank l && s_skip s then Some (s, [], None)
  else if s_ex s then
    if is_end l
    then Some (Build_st (s_cpp s) (s_code s) (s_n s) false false, block_end base (s_n s) l, None)
    else Some (Build_st (s_cpp s) (s_code s) (s_n s) true false, [], None)
  else if is_header l
  then Some (Build_st (s_cpp s) (s_code s) (s_n s) true false, [l], None)
  else if is_link l
  then Some (Build_st (s_cpp s) (s_code s) (s_n s) false true, [], None)
  else if s_cpp s then
    if is_code l then
      Some (Build_st true (if is_prompt l then s_code s ++ [skipn 2 l] else s_code s)
              (s_n s) false false, [l], None)
    else if (1 <? length (s_code s))%nat then
      match make_copy_paste_friendly (s_code s) with
      | Some lines => Some (Build_st false (s_code s) (S (s_n s)) false false,
                            [l; link_line base (s_n s); nl], Some lines)
      | None => None
      end
    else Some (Build_st false (s_code s) (s_n s) false false, [l], None)
  else if is_code l
  then Some (Build_st true [skipn 2 l] (s_n s) false false, [l], None)
  else Some (Build_st false (s_code s) (s_n s) false false, [l], None).

Definition opt_list {A} (o : option A) : list A := match o with Some x => [x] | None => [] end.

Fixpoint run (base : str) (s : st) (x : list str) : option (st * list str * list (list str)) :=
  match x with
  | [] => Some (s, [], [])
  | l :: x' =>
      match step base s l with
      | None => None
      | Some (s1, out, sn) =>
          match run base s1 x' with
          | None => None
          | Some (s2, out', sns) => Some (s2, out ++ out', opt_list sn ++ sns)
          end
      end
  end.

Definition s_start : st := Build_st false [] 0 false false.

(** The files of the snippets [sns], numbered from [n]. *)
Fixpoint snippet_files (base : str) (n : nat) (sns : list (list str)) (fs : files) : files :=
  match sns with
  | [] => fs
  | lines :: sns' =>
      snippet_files base (S n) sns'
        (set_file (numbered base n ++ literal ".qbk") (snippet_text base n lines) fs)
  end.

Definition st_of (e : ex) : st :=
  Build_st (ex_in_cpp e) (ex_code e) (ex_counter e) (ex_in_examples e) (ex_skip e).

Lemma run_counter : forall base x s s' out sns, run base s x = Some (s', out, sns) ->
  s_n s' = (s_n s + length sns)%nat.
Proof.
  intros base. induction x as [|l x IH]; intros s s' out sns H; cbn [run] in H.
  - injection H as <- <- <-. cbn. lia.
  - destruct (step base s l) as [((s1, o), sn)|] eqn:E; [|discriminate].
    destruct (run base s1 x) as [((s2, o'), sns')|] eqn:R; [|discriminate].
    injection H as <- <- <-. rewrite (IH _ _ _ _ R). rewrite app_length.
    assert (s_n s1 = (s_n s + length (opt_list sn))%nat); [|lia].
    unfold step in E. revert E.
    repeat match goal with
    | |- (if ?b then _ else _) = _ -> _ => destruct b
    | |- match ?b with Some _ => _ | None => _ end = _ -> _ => destruct b
    end; intros E; try discriminate; injection E as <- <- <-; cbn [s_n opt_list length]; lia.
Qed.

Lemma ex_run : forall base x e,
  match ex_lines base e x, run base (st_of e) x with
  | Some e', Some (s', out, sns) =>
      s' = st_of e' /\ ex_result e' = ex_result e ++ out
      /\ ex_files e' = snippet_files base (ex_counter e) sns (ex_files e)
  | None, None => True
  | _, _ => False
  end.
Proof.
  intros base. induction x as [|l x IH]; intros e; cbn [ex_lines run].
  - rewrite app_nil_r. auto.
  - assert (X : match ex_line base e l, step base (st_of e) l with
      | Some e', Some (s', out, sn) =>
          s' = st_of e' /\ ex_result e' = ex_result e ++ out
          /\ ex_files e' = snippet_files base (ex_counter e) (opt_list sn) (ex_files e)
          /\ ex_counter e' = (ex_counter e + length (opt_list sn))%nat
      | None, None => True
      | _, _ => False
      end).
    { unfold ex_line, step, st_of. cbn [s_cpp s_code s_n s_ex s_skip].
      fold examples_header link_mark. fold (is_header l) (is_link l) (is_end l) (is_code l).
      fold (is_prompt l).
      destruct (blank l && ex_skip e);
        [cbn; rewrite app_nil_r, Nat.add_0_r; auto|].
      destruct (ex_in_examples e).
      { destruct (is_end l); cbn; rewrite ?app_nil_r, Nat.add_0_r; auto. }
      destruct (is_header l); [cbn; rewrite Nat.add_0_r; auto|].
      destruct (is_link l); [cbn; rewrite ?app_nil_r, Nat.add_0_r; auto|].
      destruct (ex_in_cpp e).
      - destruct (is_code l); [cbn; rewrite Nat.add_0_r; auto|].
        destruct (1 <? length (ex_code e))%nat; [|cbn; rewrite Nat.add_0_r; auto].
        destruct (make_copy_paste_friendly (ex_code e)) as [lines|]; auto.
        cbn. repeat split; auto. lia.
      - destruct (is_code l); cbn; rewrite Nat.add_0_r; auto. }
    destruct (ex_line base e l) as [e1|], (step base (st_of e) l) as [((s1, o), sn)|];
      try contradiction; auto.
    destruct X as (-> & E1 & E2 & E3). specialize (IH e1).
    destruct (ex_lines base e1 x) as [e2|], (run base (st_of e1) x) as [((s2, o2), sns)|];
      try contradiction; auto.
    destruct IH as (-> & F1 & F2). split; auto. split.
    + rewrite F1, E1, <- app_assoc. reflexivity.
    + rewrite F2, E2, E3. destruct sn; cbn [opt_list length app snippet_files].
      * replace (ex_counter e + 1)%nat with (S (ex_counter e)) by lia. reflexivity.
      * rewrite Nat.add_0_r. reflexivity.
Qed.

Lemma extract_run : forall base x,
  extract_code_snippets x base
  = match run base s_start x with
    | Some (_, out, sns) => Some (snippet_files base 0 sns [], out)
    | None => None
    end.
Proof.
  intros base x. unfold extract_code_snippets.
  pose proof (ex_run base x ex_start) as H. change (st_of ex_start) with s_start in H.
  destruct (ex_lines base ex_start x) as [e|], (run base s_start x) as [((s, o), sns)|];
    try contradiction; auto.
  destruct H as (_ & -> & ->). reflexivity.
Qed.

(** ** Snippets depend on the prompts only *)

Definition prompt (w : str) : bool := starts (literal "> ") w || starts (literal "...> ") w.

Lemma friendly_filter : forall code r,
  make_copy_paste_friendly_from r code
  = make_copy_paste_friendly_from r (filter prompt code).
Proof.
  induction code as [|w code IH]; intros r; [reflexivity|].
  cbn [filter make_copy_paste_friendly_from]. unfold prompt at 1.
  destruct (starts (literal "> ") w) eqn:A; cbn [orb].
  - cbn [make_copy_paste_friendly_from]. rewrite A. apply IH.
  - destruct (starts (literal "...> ") w) eqn:B; cbn [orb].
    + cbn [make_copy_paste_friendly_from]. rewrite A, B. destruct r; auto.
    + apply IH.
Qed.

Lemma is_prompt_code : forall l, is_prompt l = true -> is_code l = true.
Proof.
  intros l H. unfold is_prompt, is_code in *. apply orb_true_iff in H as [H|H];
    apply starts_inv in H as (s & ->); reflexivity.
Qed.

Lemma is_prompt_prompt : forall l, is_code l = true -> is_prompt l = prompt (skipn 2 l).
Proof.
  intros l H. unfold is_code in H. apply starts_inv in H as (s & ->). reflexivity.
Qed.

(** ** Blank lines *)

Lemma lstrip_nil : forall s, lstrip s = [] <-> Forall (fun c => py_space c = true) s.
Proof.
  induction s as [|c s IH]; cbn; [split; auto|]. destruct (py_space c) eqn:E.
  - rewrite IH. split; [constructor; auto|inversion 1; auto].
  - split; [discriminate|]. inversion 1; congruence.
Qed.

Lemma lstrip_suffix : forall s, exists w, s = w ++ lstrip s
  /\ Forall (fun c => py_space c = true) w.
Proof.
  induction s as [|c s (w & E & F)]; [exists []; auto|]. cbn. destruct (py_space c) eqn:P.
  - exists (c :: w). split; [cbn; congruence|constructor; auto].
  - exists []. auto.
Qed.

Lemma blank_iff : forall s, blank s = true <-> Forall (fun c => py_space c = true) s.
Proof.
  intros s. unfold blank, strip. destruct (rev (lstrip (rev (lstrip s)))) eqn:E.
  - split; auto. intros _.
    assert (E' : lstrip (rev (lstrip s)) = []).
    { rewrite <- (rev_involutive (lstrip (rev (lstrip s)))), E. reflexivity. }
    apply lstrip_nil in E'. apply Forall_rev in E'. rewrite rev_involutive in E'.
    destruct (lstrip_suffix s) as (w & -> & F). apply Forall_app. auto.
  - split; [discriminate|]. intros F. apply lstrip_nil in F. rewrite F in E. discriminate.
Qed.

Lemma blank_not : forall s c, In c s -> py_space c = false -> blank s = false.
Proof.
  intros s c I P. destruct (blank s) eqn:B; auto. apply blank_iff in B.
  rewrite Forall_forall in B. specialize (B c I). congruence.
Qed.

Lemma blank_nl : blank nl = true.
Proof. reflexivity. Qed.

Lemma contains_iff : forall p s, contains p s = true <-> occurs p s.
Proof.
  intros p s. split.
  - induction s as [|c s IH]; cbn [contains]; rewrite orb_true_iff; intros [H|H].
    + apply starts_inv in H as (s' & E). exists [], s'. exact E.
    + discriminate.
    + apply starts_inv in H as (s' & E). exists [], s'. exact E.
    + destruct (IH H) as (a & b & ->). exists (c :: a), b. reflexivity.
  - intros (a & b & ->). induction a as [|c a IH].
    + cbn [app]. pose proof (starts_app p b) as Q. destruct (p ++ b); cbn [contains];
        rewrite Q; reflexivity.
    + cbn [app contains]. rewrite IH. apply orb_true_r.
Qed.

Lemma contains_blank : forall p s c, In c p -> py_space c = false -> contains p s = true ->
  blank s = false.
Proof.
  intros p s c I P H. apply contains_iff in H as (a & b & ->).
  apply (blank_not _ c); auto. apply in_or_app. right. apply in_or_app. left. exact I.
Qed.

Lemma header_not_blank : forall l, is_header l = true -> blank l = false.
Proof. intros l. apply (contains_blank _ _ 91); [left|]; reflexivity. Qed.
Lemma link_not_blank : forall l, is_link l = true -> blank l = false.
Proof. intros l. apply (contains_blank _ _ 99); [left|]; reflexivity. Qed.
Lemma end_not_blank : forall l, is_end l = true -> blank l = false.
Proof. intros l. apply (contains_blank _ _ 101); [left|]; reflexivity. Qed.

Lemma prompt_not_blank : forall l, is_prompt l = true -> blank l = false.
Proof.
  intros l H. unfold is_prompt in H. apply orb_true_iff in H as [H|H];
    apply starts_inv in H as (s & ->).
  - apply (blank_not _ 62); [cbn; tauto|reflexivity].
  - apply (blank_not _ 62); [cbn; tauto|reflexivity].
Qed.

(** ** Generated lines *)

(** What the name of the guide may not contain. *)
Definition base_ok (base : str) : Prop :=
  ~ In 91 base /\ ~ occurs (text "endsect") base.

Lemma occurs_cut : forall (p : str) (a : str) c b, ~ In c p -> occurs p (a ++ c :: b) ->
  occurs p a \/ occurs p b.
Proof.
  intros p a c b N (u & v & E).
  destruct (Nat.le_gt_cases (length u + length p) (length a)) as [L|L].
  - left. exists u, (skipn (length u + length p) a).
    assert (X : firstn (length u + length p) (a ++ c :: b) = u ++ p).
    { rewrite E, app_assoc, <- app_length, firstn_app, firstn_all, Nat.sub_diag, firstn_O,
        app_nil_r. reflexivity. }
    rewrite firstn_app in X. replace (length u + length p - length a)%nat with 0%nat in X by lia.
    rewrite firstn_O, app_nil_r in X. rewrite app_assoc, <- X. symmetry. apply firstn_skipn.
  - destruct (Nat.le_gt_cases (length u) (length a)) as [M|M].
    + exfalso. apply N. apply (nth_error_In _ (length a - length u)).
      assert (X : nth_error (a ++ c :: b) (length a) = Some c).
      { rewrite nth_error_app2, Nat.sub_diag by lia. reflexivity. }
      rewrite E in X. rewrite nth_error_app2 in X by lia.
      rewrite nth_error_app1 in X by lia. exact X.
    + right. exists (skipn (length a + 1) u), v.
      assert (X : skipn (length a + 1) (a ++ c :: b) = b).
      { rewrite skipn_app. replace (length a + 1 - length a)%nat with 1%nat by lia.
        rewrite skipn_all2 by lia. reflexivity. }
      rewrite <- X at 1. rewrite E, skipn_app.
      replace (length a + 1 - length u)%nat with 0%nat by lia. reflexivity.
Qed.

Lemma link_is_link : forall base n, is_link (link_line base n) = true.
Proof.
  intros base n. apply contains_iff. unfold link_line, occurs.
  exists (literal "[link " ++ numbered base n ++ [32]), ([93] ++ nl).
  rewrite <- !app_assoc. reflexivity.
Qed.

Lemma occurs_starts : forall c p a, ~ In c a -> ~ occurs (c :: p) a.
Proof.
  intros c p a N (u & v & E). apply N. rewrite E. apply in_or_app. right. left. reflexivity.
Qed.

Lemma numbered_chars : forall base n c, In c (numbered base n) ->
  In c base \/ c = 95 \/ 48 <= c <= 57.
Proof.
  intros base n c H. unfold numbered in H. apply in_app_or in H as [H|H]; auto.
  destruct H as [H|H]; [right; left; auto|]. right; right.
  assert (F : Forall (fun c => 48 <= c <= 57) (print_int (Z.of_nat n))).
  { unfold print_int. destruct (Z.to_int (Z.of_nat n)) as [u|u] eqn:E.
    - clear. induction u; cbn [uint_chars]; constructor; auto; lia.
    - destruct n; discriminate. }
  rewrite Forall_forall in F. auto.
Qed.

Lemma link_not_header : forall base n, ~ In 91 base -> is_header (link_line base n) = false.
Proof.
  intros base n N. destruct (is_header (link_line base n)) eqn:E; auto. exfalso.
  apply contains_iff in E. destruct E as (u & v & E). unfold link_line in E.
  destruct u as [|c u]; [discriminate|].
  change (literal "[link ") with (91 :: literal "link ") in E.
  injection E as _ E.
  assert (X : In 91 (literal "link " ++ numbered base n
      ++ literal " copy-paste friendly version]" ++ nl)).
  { match type of E with ?t = _ => change (In 91 t) end. rewrite E. apply in_or_app. right. left. reflexivity. }
  clear E. apply in_app_or in X as [X|X].
  { cbn in X. repeat (destruct X as [X|X]; [discriminate|]). destruct X. }
  apply in_app_or in X as [X|X].
  - apply numbered_chars in X as [X|[X|X]]; [auto|discriminate|lia].
  - apply in_app_or in X as [X|X]; cbn in X;
      repeat (destruct X as [X|X]; [discriminate|]); destruct X.
Qed.

Lemma include_not_end : forall base n, base_ok base -> is_end (include_line base n) = false.
Proof.
  intros base n (_ & N). destruct (is_end (include_line base n)) eqn:E; auto. exfalso.
  apply contains_iff in E. unfold include_line, numbered in E.
  change (literal "[include ") with (literal "[include" ++ [32]) in E.
  rewrite <- !app_assoc in E. cbn [app] in E.
  assert (P : forall c, In c (literal "endsect") -> 97 <= c <= 122).
  { intros c H. cbn in H. repeat (destruct H as [<-|H]; [lia|]). destruct H. }
  apply (occurs_cut (literal "endsect") (literal "[include") 32) in E;
    [|intros H; apply P in H; lia].
  destruct E as [E|E].
  - apply contains_iff in E. discriminate E.
  - apply (occurs_cut (literal "endsect") base 95) in E; [|intros H; apply P in H; lia].
    destruct E as [E|E]; [exact (N E)|].
    assert (D : Forall (fun c => 48 <= c <= 57) (print_int (Z.of_nat n))).
    { unfold print_int. destruct (Z.to_int (Z.of_nat n)) as [u|u] eqn:Q.
      - clear. induction u; cbn [uint_chars]; constructor; auto; lia.
      - destruct n; discriminate. }
    destruct E as (u & v & E).
    change (literal ".qbk]") with (46 :: literal "qbk]") in E. cbn [app] in E.
    assert (E' : occurs (literal "endsect") (print_int (Z.of_nat n) ++ 46 :: literal "qbk]" ++ nl))
      by (exists u, v; exact E).
    apply occurs_cut in E'; [|intros H; apply P in H; lia]. destruct E' as [E'|E'].
    + destruct E' as (a & b & Q). rewrite Q in D. rewrite !Forall_app in D.
      destruct D as (_ & D & _). inversion D; subst. lia.
    + apply contains_iff in E'. discriminate E'.
Qed.

(** ** Running the tool again *)

(** Whenever a snippet is written, the next line of the input is an old link. *)
Fixpoint expected (base : str) (s : st) (y : list str) : Prop :=
  match y with
  | [] => True
  | l :: y' =>
      match step base s l with
      | None => False
      | Some (s', _, sn) =>
          (sn <> None -> match y' with
                         | [] => True
                         | k :: _ => is_link k = true /\ is_header k = false
                         end)
          /\ expected base s' y'
      end
  end.

Lemma run_app : forall base x y s,
  run base s (x ++ y)
  = match run base s x with
    | None => None
    | Some (s1, o1, n1) =>
        match run base s1 y with
        | None => None
        | Some (s2, o2, n2) => Some (s2, o1 ++ o2, n1 ++ n2)
        end
    end.
Proof.
  intros base. induction x as [|l x IH]; intros y s; cbn [app run].
  - destruct (run base s y) as [((s2, o2), n2)|]; reflexivity.
  - destruct (step base s l) as [((s1, o), sn)|]; auto. rewrite IH.
    destruct (run base s1 x) as [((s2, o2), n2)|]; auto.
    destruct (run base s2 y) as [((s3, o3), n3)|]; auto.
    rewrite !app_assoc. reflexivity.
Qed.

(** Lines inside the generated section are ignored. *)
Lemma run_inside : forall base w s, s_ex s = true -> s_skip s = false ->
  Forall (fun l => is_end l = false) w ->
  run base s w = Some (s, [], []).
Proof.
  intros base w s E K F. induction F as [|l w H F IH]; [reflexivity|].
  cbn [run]. unfold step. rewrite K, andb_false_r, E, H.
  destruct s as [c co n e k]; cbn in *; subst. rewrite IH. reflexivity.
Qed.

Lemma expected_app : forall base x y s s' o, expected base s x ->
  run base s x = Some (s', o, []) -> expected base s' y -> expected base s (x ++ y).
Proof.
  intros base. induction x as [|l x IH]; intros y s s' o H R Y; cbn [app].
  - cbn in R. injection R as <- <-. exact Y.
  - cbn [expected] in *. cbn [run] in R.
    destruct (step base s l) as [((s1, o1), sn)|]; [|destruct H].
    destruct (run base s1 x) as [((s2, o2), n2)|] eqn:Q; [|discriminate].
    injection R as <- <- R. destruct sn; [discriminate|]. cbn in R. subst n2.
    destruct H as (_ & H). split; [congruence|]. eapply IH; eauto.
Qed.

Lemma expected_inside : forall base w s, s_ex s = true -> s_skip s = false ->
  Forall (fun l => is_end l = false) w -> expected base s w.
Proof.
  intros base w s E K F. induction F as [|l w H F IH]; [exact Logic.I|].
  cbn [expected]. unfold step. rewrite K, andb_false_r, E, H.
  destruct s as [c co n e k]; cbn in *; subst. split; [congruence|]. exact IH.
Qed.

Lemma block_lines : forall base n, base_ok base ->
  Forall (fun l => is_end l = false) (nl :: map (include_line base) (seq 0 n) ++ [nl]).
Proof.
  intros base n B. constructor; [reflexivity|]. apply Forall_app. split.
  - apply Forall_forall. intros l H. apply in_map_iff in H as (i & <- & _).
    apply include_not_end. exact B.
  - repeat constructor.
Qed.

Lemma block_end_split : forall base n l,
  block_end base n l = (nl :: map (include_line base) (seq 0 n) ++ [nl]) ++ [l].
Proof. intros. unfold block_end. cbn [app]. rewrite <- app_assoc. reflexivity. Qed.

(** *** From an output with its links in the right places the tool makes a text that
    it does not change. *)

Definition sync (a b : st) : Prop :=
  s_cpp a = s_cpp b /\ s_code a = s_code b /\ s_n a = s_n b /\ s_ex a = s_ex b
  /\ (s_skip b = true -> s_skip a = true)
  /\ (s_ex a = true -> s_skip a = false /\ s_skip b = false).

Definition window (a b : st) (y : list str) : Prop :=
  s_cpp a = s_cpp b /\ s_code a = s_code b /\ s_n a = s_n b
  /\ s_ex a = false /\ s_ex b = false /\ s_skip b = true /\ s_skip a = false
  /\ match y with
     | [] => True
     | k :: _ => is_link k = true /\ is_header k = false
     end.

Lemma again : forall base, base_ok base -> forall y a b a' z sns,
  expected base a y -> sync a b \/ window a b y ->
  run base a y = Some (a', z, sns) ->
  exists b', run base b z = Some (b', z, sns).
Proof.
  intros base BO. induction y as [|l y IH]; intros a b a' z sns X W R.
  { cbn in R. injection R as <- <- <-. exists b. reflexivity. }
  cbn [expected] in X. cbn [run] in R.
  destruct (step base a l) as [((a1, o), sn)|] eqn:E; [|discriminate].
  destruct (run base a1 y) as [((a2, z'), sns')|] eqn:R1; [|discriminate].
  injection R as <- <- <-. destruct X as (XL & X).
  destruct W as [(W1 & W2 & W3 & W4 & W5 & W6)|(W1 & W2 & W3 & W4 & W5 & W6 & W7 & W8 & W9)].
  2: { (* the old link after a snippet *)
    unfold step in E. rewrite W7, andb_false_r, W4, W9, W8 in E.
    injection E as <- <- <-. cbn [opt_list app].
    eapply (IH _ b); [exact X| |exact R1]. left. unfold sync. cbn.
    rewrite W5. repeat split; auto; discriminate. }
  unfold step in E.
  destruct (blank l && s_skip a) eqn:BS.
  { injection E as <- <- <-. cbn [opt_list app]. eapply (IH _ b); [exact X| |exact R1].
    left. unfold sync. auto 10. }
  destruct (s_ex a) eqn:EX.
  { destruct (W6 eq_refl) as (SA & SB). symmetry in W4.
    destruct (is_end l) eqn:EN.
    - injection E as <- <- <-. cbn [opt_list app].
      edestruct (IH (Build_st (s_cpp a) (s_code a) (s_n a) false false)
        (Build_st (s_cpp b) (s_code b) (s_n b) false false)) as (b' & Q); [exact X| |exact R1|].
      { left. unfold sync. cbn. repeat split; auto; discriminate. }
      exists b'. rewrite block_end_split, <- !app_assoc.
      rewrite run_app, run_inside; auto using block_lines.
      cbn [app run]. unfold step at 1. rewrite SB, andb_false_r, W4, EN.
      rewrite Q, <- W3. rewrite block_end_split. cbn [opt_list app].
      rewrite <- !app_assoc. reflexivity.
    - injection E as <- <- <-. cbn [opt_list app]. eapply (IH _ b); [exact X| |exact R1].
      left. unfold sync. cbn. rewrite W4. repeat split; auto; congruence. }
  symmetry in W4.
  assert (BB : blank l && s_skip b = false).
  { destruct (s_skip b); [|apply andb_false_r]. rewrite (W5 eq_refl) in BS. exact BS. }
  destruct (is_header l) eqn:HD.
  { injection E as <- <- <-. cbn [opt_list app run].
    edestruct (IH (Build_st (s_cpp a) (s_code a) (s_n a) true false) (Build_st (s_cpp b) (s_code b) (s_n b) true false)) as (b' & Q); [exact X| |exact R1|].
    { left. unfold sync. cbn. auto 10. }
    exists b'. unfold step. rewrite BB, W4, HD, Q. reflexivity. }
  destruct (is_link l) eqn:LK.
  { injection E as <- <- <-. cbn [opt_list app]. eapply (IH _ b); [exact X| |exact R1].
    left. unfold sync. cbn. rewrite W4. repeat split; auto; discriminate. }
  assert (KEEP : forall a1' o', o = [l] -> sn = None -> a1 = a1' -> o' = [l] ->
    s_ex a1' = false -> s_skip a1' = false ->
    step base b l = Some (a1', o', None) -> exists b', run base b (o ++ z') = Some (b', o ++ z', opt_list sn ++ sns')).
  { intros a1' o' -> -> <- -> EX1 SK1 S.
    edestruct (IH a1 a1) as (b' & Q); [exact X| |exact R1|].
    { left. unfold sync. repeat split; auto. }
    exists b'. cbn [app run]. rewrite S, Q. reflexivity. }
  assert (SB : step base b l
    = if s_cpp a then
        if is_code l then
          Some (Build_st true (if is_prompt l then s_code a ++ [skipn 2 l] else s_code a)
              (s_n a) false false, [l], None)
        else if (1 <? length (s_code a))%nat then
          match make_copy_paste_friendly (s_code a) with
          | Some lines => Some (Build_st false (s_code a) (S (s_n a)) false false,
                                [l; link_line base (s_n a); nl], Some lines)
          | None => None
          end
        else Some (Build_st false (s_code a) (s_n a) false false, [l], None)
      else if is_code l
      then Some (Build_st true [skipn 2 l] (s_n a) false false, [l], None)
      else Some (Build_st false (s_code a) (s_n a) false false, [l], None)).
  { unfold step. rewrite BB, W4, HD, LK, <- W1, <- W2, <- W3. reflexivity. }
  destruct (s_cpp a).
  - destruct (is_code l).
    { injection E as <- <- <-. eapply KEEP; eauto. }
    destruct (1 <? length (s_code a))%nat.
    + destruct (make_copy_paste_friendly (s_code a)) as [lines|]; [|discriminate].
      injection E as <- <- <-.
      edestruct (IH (Build_st false (s_code a) (S (s_n a)) false false)
        (Build_st false (s_code a) (S (s_n a)) false true)) as (b' & Q);
        [exact X| |exact R1|].
      { right. unfold window. cbn. repeat split; auto. apply XL. discriminate. }
      exists b'. cbn [app run]. rewrite SB. cbn [run].
      unfold step at 1. cbn [s_cpp s_code s_n s_ex s_skip]. rewrite andb_false_r.
      rewrite (link_not_header base (s_n a) (proj1 BO)), link_is_link.
      unfold step at 1. cbn [s_cpp s_code s_n s_ex s_skip]. rewrite blank_nl. cbn [andb].
      rewrite Q. reflexivity.
    + injection E as <- <- <-. eapply KEEP; eauto.
  - destruct (is_code l); injection E as <- <- <-; eapply KEEP; eauto.
Qed.

(** *** The output of the tool has its links in the right places. *)

Definition crel (c d : list str) : Prop :=
  filter prompt c = filter prompt d /\ (length d <= length c)%nat.

Definition rel (a b : st) : Prop :=
  s_ex a = s_ex b /\ (s_ex a = true -> s_skip b = false)
  /\ (s_skip b = true -> s_cpp b = false)
  /\ ((s_cpp a = s_cpp b /\ (s_cpp a = true -> crel (s_code a) (s_code b)))
      \/ (s_cpp a = true /\ s_cpp b = false /\ exists w, s_code a = [w] /\ prompt w = false)).

Lemma expected_output : forall base, base_ok base -> forall x a b a' y sns,
  rel a b -> run base a x = Some (a', y, sns) -> expected base b y.
Proof.
  intros base BO. induction x as [|l x IH]; intros a b a' y sns W R.
  { cbn in R. injection R as <- <- <-. exact Logic.I. }
  cbn [run] in R.
  destruct (step base a l) as [((a1, o), sn)|] eqn:E; [|discriminate].
  destruct (run base a1 x) as [((a2, y'), sns')|] eqn:R1; [|discriminate].
  injection R as <- <- <-. unfold step in E.
  destruct (blank l && s_skip a) eqn:BS.
  { injection E as <- <- <-. cbn [app]. eapply IH; eauto. }
  destruct W as (W1 & W2 & W3 & W4).
  destruct (s_ex a) eqn:EX.
  { specialize (W2 eq_refl). symmetry in W1. destruct (is_end l) eqn:EN.
    - injection E as <- <- <-. rewrite block_end_split, <- app_assoc.
      eapply expected_app;
        [apply expected_inside; auto using block_lines|
         apply run_inside; auto using block_lines|].
      cbn [app expected]. unfold step. rewrite W2, andb_false_r, W1, EN.
      split; [congruence|]. eapply IH; [|exact R1].
      unfold rel. cbn. repeat split; auto; try discriminate.
    - injection E as <- <- <-. cbn [app]. eapply IH; [|exact R1].
      unfold rel. cbn. rewrite W1. repeat split; auto; discriminate. }
  symmetry in W1.
  destruct (is_header l) eqn:HD.
  { injection E as <- <- <-. cbn [app expected]. unfold step.
    rewrite (header_not_blank l HD), W1, HD. cbn [andb].
    split; [congruence|]. eapply IH; [|exact R1].
    unfold rel. cbn. repeat split; auto; discriminate. }
  destruct (is_link l) eqn:LK.
  { injection E as <- <- <-. cbn [app]. eapply IH; [|exact R1].
    unfold rel. cbn. rewrite W1. repeat split; auto; discriminate. }
  destruct (blank l && s_skip b) eqn:BB.
  - (* the second run leaves out a blank line *)
    apply andb_true_iff in BB as (BL & SK). specialize (W3 SK).
    assert (NP : is_prompt l = false).
    { destruct (is_prompt l) eqn:P; auto. apply prompt_not_blank in P. congruence. }
    assert (GO : forall a1' sn', o = [l] -> sn = sn' -> a1 = a1' -> rel a1' b ->
              expected base b (o ++ y')).
    { intros a1' sn' -> -> -> RL. cbn [app expected]. unfold step. rewrite BL, SK. cbn [andb].
      split; [congruence|]. eapply IH; eauto. }
    assert (RN : forall co n k, rel (Build_st false co n false k) b).
    { intros co n k. unfold rel. cbn. rewrite W1. repeat split; auto; try discriminate.
      left. rewrite W3. split; auto. discriminate. }
    assert (RC : forall w n k, prompt w = false -> rel (Build_st true [w] n false k) b).
    { intros w n k PW. unfold rel. cbn. rewrite W1. repeat split; auto; try discriminate.
      right. repeat split; auto. exists w. auto. }
    destruct W4 as [(C & _)|(C & _ & w & CW & PW)].
    + rewrite C, W3 in E. destruct (is_code l) eqn:CO.
      * injection E as <- <- <-. eapply GO; eauto. apply RC.
        rewrite is_prompt_prompt in NP; auto.
      * injection E as <- <- <-. eapply GO; eauto.
    + rewrite C, CW, NP in E. cbn [length] in E. destruct (is_code l) eqn:CO.
      * injection E as <- <- <-. eapply GO; eauto.
      * change (1 <? 1)%nat with false in E. injection E as <- <- <-. eapply GO; eauto.
  - assert (STEP : step base b l
      = if s_cpp b then
        if is_code l then
          Some (Build_st true (if is_prompt l then s_code b ++ [skipn 2 l] else s_code b)
              (s_n b) false false, [l], None)
        else if (1 <? length (s_code b))%nat then
          match make_copy_paste_friendly (s_code b) with
          | Some lines => Some (Build_st false (s_code b) (S (s_n b)) false false,
                                [l; link_line base (s_n b); nl], Some lines)
          | None => None
          end
        else Some (Build_st false (s_code b) (s_n b) false false, [l], None)
      else if is_code l
      then Some (Build_st true [skipn 2 l] (s_n b) false false, [l], None)
      else Some (Build_st false (s_code b) (s_n b) false false, [l], None)).
    { unfold step. rewrite BB, W1, HD, LK. reflexivity. }
    assert (RN : forall co n k co' n', rel (Build_st false co n false k) (Build_st false co' n' false false)).
    { intros. unfold rel. cbn. repeat split; auto; try discriminate.
      left. split; auto. discriminate. }
    assert (RC : forall co n k co' n', crel co co' ->
      rel (Build_st true co n false k) (Build_st true co' n' false false)).
    { intros. unfold rel. cbn. repeat split; auto; try discriminate. }
    destruct W4 as [(C & CR)|(C & C' & w & CW & PW)].
    + rewrite <- C in STEP. destruct (s_cpp a) eqn:CP.
      * specialize (CR eq_refl). destruct CR as (CF & CL).
        destruct (is_code l) eqn:CO.
        { injection E as <- <- <-. cbn [app expected]. rewrite STEP. split; [congruence|].
          eapply IH; [|exact R1]. apply RC. destruct (is_prompt l).
          - split; [rewrite !filter_app, CF; reflexivity|rewrite !app_length; apply Nat.add_le_mono_r; exact CL].
          - split; auto. }
        destruct (1 <? length (s_code a))%nat eqn:LA.
        -- assert (MF : make_copy_paste_friendly (s_code a) = make_copy_paste_friendly (s_code b)).
           { unfold make_copy_paste_friendly. rewrite friendly_filter, CF, <- friendly_filter.
             reflexivity. }
           destruct (make_copy_paste_friendly (s_code a)) as [lines|]; [|discriminate].
           injection E as <- <- <-. rewrite <- MF in STEP.
           assert (TAIL : forall s, s_cpp s = false -> s_ex s = false -> s_skip s = false ->
             expected base s (link_line base (s_n a) :: nl :: y')).
           { intros s S1 S2 S3. cbn [expected]. unfold step at 1.
             rewrite S3, andb_false_r, S2, (link_not_header base (s_n a) (proj1 BO)), link_is_link.
             split; [congruence|]. unfold step. cbn [s_cpp s_code s_n s_ex s_skip].
             rewrite blank_nl. cbn [andb]. split; [congruence|].
             eapply IH; [|exact R1]. unfold rel. cbn. rewrite S1.
             repeat split; auto; try discriminate. left. split; auto; discriminate. }
           cbn [app]. cbn [expected]. rewrite STEP.
           destruct (1 <? length (s_code b))%nat.
           ++ split; [intros _; split; [apply link_is_link|apply link_not_header; apply BO]|].
              apply TAIL; reflexivity.
           ++ split; [congruence|]. apply TAIL; reflexivity.
        -- injection E as <- <- <-. apply Nat.ltb_ge in LA.
           replace (1 <? length (s_code b))%nat with false in STEP
             by (symmetry; apply Nat.ltb_ge; lia).
           cbn [app expected]. rewrite STEP. split; [congruence|].
           eapply IH; [|exact R1]. apply RN.
      * destruct (is_code l) eqn:CO; injection E as <- <- <-; cbn [app expected]; rewrite STEP;
          (split; [congruence|]); eapply IH; try exact R1.
        -- apply RC. split; auto.
        -- apply RN.
    + rewrite C' in STEP. rewrite C, CW in E. destruct (is_code l) eqn:CO.
      * pose proof (is_prompt_prompt l CO) as PP. revert E STEP PP.
        generalize (skipn 2 l). intros v E STEP PP.
        injection E as <- <- <-. cbn [app expected]. rewrite STEP. split; [congruence|].
        eapply IH; [|exact R1]. apply RC. destruct (is_prompt l).
        -- split; [|cbn; lia]. cbn [app filter]. rewrite PW, <- PP. reflexivity.
        -- split; [|cbn; lia]. cbn [filter]. rewrite PW, <- PP. reflexivity.
      * change (1 <? length [w])%nat with false in E. injection E as <- <- <-.
        cbn [app expected]. rewrite STEP. split; [congruence|].
        eapply IH; [|exact R1]. apply RN.
Qed.

Lemma expected_runs : forall base y s, expected base s y ->
  exists s' z sns, run base s y = Some (s', z, sns).
Proof.
  intros base. induction y as [|l y IH]; intros s H.
  - exists s, [], []. reflexivity.
  - cbn [expected] in H. cbn [run]. destruct (step base s l) as [((s1, o), sn)|]; [|destruct H].
    destruct (IH s1 (proj2 H)) as (s' & z & sns & ->). eauto.
Qed.

Lemma stable : forall base x fs y, base_ok base -> extract_code_snippets x base = Some (fs, y) ->
  exists fs' z, extract_code_snippets y base = Some (fs', z)
    /\ extract_code_snippets z base = Some (fs', z).
Proof.
  intros base x fs y BO H. rewrite extract_run in H.
  destruct (run base s_start x) as [((s, o), sns)|] eqn:R; [|discriminate].
  injection H as <- <-.
  assert (X : expected base s_start o).
  { eapply expected_output; eauto. unfold rel. cbn. repeat split; auto; try discriminate.
    left. split; auto. discriminate. }
  destruct (expected_runs _ _ _ X) as (s' & z & sns' & R').
  edestruct (again base BO o s_start s_start) as (b' & Q); [exact X| |exact R'|].
  { left. unfold sync. cbn. repeat split; auto. }
  exists (snippet_files base 0 sns' []), z. rewrite !extract_run, R', Q. auto.
Qed.
