(** C82: the headers of the library can be included in any order. *)

From Coq Require Import ZArith NArith List Bool Lia Permutation Arith.
From Verif Require Import Include HeaderFiles SpecInclude Proofs_Include Proofs_IncludeRun Proofs_IncludeAll.
Import ListNotations.
Open Scope Z_scope.

(** Any headers for everybody, in any order, with any compiler: there is no error, every
    name is declared before it is used and nothing is defined twice. *)
Theorem C82_any_order : forall ms hs depth,
  untouched ms -> Forall general hs -> (14 <= depth)%nat ->
  exists ms' out, preprocess headers depth (includes hs) ms = Some (ms', out)
    /\ uses_declared out /\ NoDup (definitions out).
Proof.
  intros ms hs depth U G D. destruct (have_unit ms U) as (k & v & forb & prov & t & K).
  destruct (whole_run ms k v forb prov t hs depth K G D) as (ms' & out & new & R & M & N & CL & C & S & E & RD).
  exists ms', out. split; [exact R|]. split; [exact S|].
  rewrite <- definitions_contents. eapply Permutation_NoDup; [apply Permutation_sym; apply definitions_perm; exact E|].
  eapply definitions_unique; [apply (u_tables _ _ _ _ _ _ K)|exact N|]. intros g I. destruct (C g I) as (A & L & _). auto.
Qed.

(** Only files for the standard are read; the standard is the one that was asked for,
    or the one the compiler supports. *)
Theorem C82_standard : forall ms hs depth ms' out,
  untouched ms -> Forall general hs -> (14 <= depth)%nat ->
  preprocess headers depth (includes hs) ms = Some (ms', out) ->
  exists s, standard ms s
    /\ (forall f, In (Reads f) out -> for_standard s f)
    /\ (In h_config hs -> ms' BOOST_METAPARSE_STD = Some s).
Proof.
  intros ms hs depth ms1 out1 U G D R1. destruct (have_unit ms U) as (k & v & forb & prov & t & K).
  destruct (whole_run ms k v forb prov t hs depth K G D) as (ms' & out & new & R & M & N & CL & C & S & E & RD).
  rewrite R in R1. injection R1 as <- <-. pose proof (u_tables _ _ _ _ _ _ K) as T.
  exists v. split; [apply (u_standard _ _ _ _ _ _ K)|]. split.
  - intros f I. apply RD in I. rewrite (tb_forb _ _ _ _ T), has_bits in I.
    assert (X : ~ In f (not_read k)) by (intros X; apply memf_in in X; congruence). unfold not_read in X. cbn [In] in X.
    rewrite in_app_iff in X. pose proof (u_11 _ _ _ _ _ _ K) as K11. pose proof (u_14 _ _ _ _ _ _ K) as K14.
    unfold k11, k14 in *. split; [|split]; intros S'.
    + destruct (k_std k); [|apply Z.leb_le in K11; lia|apply Z.leb_le in K11; lia]. rewrite in_app_iff in X. tauto.
    + destruct (k_std k); [apply Z.leb_gt in K11; lia| |apply Z.leb_le in K14; lia]. rewrite in_app_iff in X. tauto.
    + destruct (k_std k); [apply Z.leb_gt in K14; lia|apply Z.leb_gt in K14; lia|]. rewrite in_app_iff in X. fold replaced in X. tauto.
  - intros I. rewrite M. rewrite (special_defined k ms new [] BOOST_METAPARSE_STD h_config eq_refl).
    + apply (u_std _ _ _ _ _ _ K).
    + apply CL. exists h_config. split; [exact I|].
      destruct (special_small h_config eq_refl) as (c & EC & NR).
      assert (A : has_bit forb h_config = false) by (rewrite (tb_forb _ _ _ _ T), has_bits; apply NR; apply (u_kind _ _ _ _ _ _ K)).
      destruct (table_entries k forb prov t h_config c T EC A) as (_ & X & _). rewrite (X eq_refl). cbn [e_all].
      rewrite has_bit_setbit, Nat.eqb_refl. reflexivity.
Qed.

(** The same headers give the same, whatever their order. *)
Theorem C82_same : forall ms hs hs' depth ms1 out1 ms2 out2,
  untouched ms -> Forall general hs -> (14 <= depth)%nat ->
  (forall h, In h hs <-> In h hs') ->
  preprocess headers depth (includes hs) ms = Some (ms1, out1) ->
  preprocess headers depth (includes hs') ms = Some (ms2, out2) ->
  (forall m, ms1 m = ms2 m) /\ Permutation (contents out1) (contents out2).
Proof.
  intros ms hs hs' depth ms1 out1 ms2 out2 U G D H R1 R2. destruct (have_unit ms U) as (k & v & forb & prov & t & K).
  assert (G' : Forall general hs') by (rewrite Forall_forall in *; intros h I; apply G; apply H; exact I).
  destruct (whole_run ms k v forb prov t hs depth K G D) as (msa & outa & newa & Ra & Ma & Na & CLa & Ca & Sa & Ea & RDa).
  destruct (whole_run ms k v forb prov t hs' depth K G' D) as (msb & outb & newb & Rb & Mb & Nb & CLb & Cb & Sb & Eb & RDb).
  rewrite Ra in R1. injection R1 as <- <-. rewrite Rb in R2. injection R2 as <- <-.
  assert (I : forall f, In f newa <-> In f newb).
  { intros f. rewrite CLa, CLb. split; intros (g & G1 & G2); exists g; split; auto; apply H; exact G1. }
  split.
  - intros m. rewrite Ma, Mb. apply expected_ext. exact I.
  - rewrite Ea, Eb. apply Permutation_flat_map. apply NoDup_Permutation; auto.
Qed.

(** Including headers again changes nothing. *)
Theorem C82_again : forall ms hs hs' depth ms1 out1,
  untouched ms -> Forall general hs -> (14 <= depth)%nat -> incl hs' hs ->
  preprocess headers depth (includes hs) ms = Some (ms1, out1) ->
  exists ms2 out2, preprocess headers depth (includes (hs ++ hs')) ms = Some (ms2, out2)
    /\ (forall m, ms2 m = ms1 m) /\ contents out2 = contents out1.
Proof.
  intros ms hs hs' depth ms1 out1 U G D I R1. destruct (have_unit ms U) as (k & v & forb & prov & t & K).
  destruct (whole_run ms k v forb prov t hs depth K G D) as (msa & outa & newa & Ra & Ma & Na & CLa & Ca & Sa & Ea & RDa).
  rewrite Ra in R1. injection R1 as <- <-.
  assert (F : Forall (includable forb) hs').
  { apply Forall_forall. intros h X. eapply general_includable; [apply (u_tables _ _ _ _ _ _ K)|apply (u_kind _ _ _ _ _ _ K)|].
    rewrite Forall_forall in G. apply G. apply I. exact X. }
  destruct (u_run _ _ _ _ _ _ K hs' 0%N depth msa newa F D Ca) as (K' & KK & ms' & out & new & R & M & N & A & C & IP & S & E & RD).
  { intros h X. rewrite has_bit_0 in X. discriminate. }
  { exact Ma. }
  assert (Z : new = []).
  { destruct new as [|g new]; [reflexivity|]. exfalso. destruct (A g (or_introl eq_refl)) as (A1 & _ & A3). apply A1. apply CLa.
    rewrite KK, has_bit_0 in A3. cbn [orb] in A3. apply existsb_exists in A3. destruct A3 as (h & H1 & H2). exists h. split; auto. }
  subst new. cbn [app owns flat_map] in *. exists ms', (outa ++ out). rewrite includes_app, Ra, R. split; [reflexivity|]. split.
  - intros m. rewrite M, Ma. reflexivity.
  - rewrite contents_app. apply Permutation_sym in E. apply Permutation_nil in E. rewrite E. apply app_nil_r.
Qed.

(** What the user has defined stays as it is; but for the include guards, the settings
    and the macros for the users no macro is left behind. *)
Theorem C82_left_alone : forall ms hs depth ms' out,
  untouched ms -> Forall general hs -> (14 <= depth)%nat ->
  preprocess headers depth (includes hs) ms = Some (ms', out) ->
  (forall m v, ms m = Some v -> ms' m = Some v)
  /\ (forall m, ms' m <> ms m -> In m settings \/ In m exported \/ exists c, In c headers /\ guard_of c = Some m).
Proof.
  intros ms hs depth ms1 out1 U G D R1. destruct (have_unit ms U) as (k & v & forb & prov & t & K).
  destruct (whole_run ms k v forb prov t hs depth K G D) as (ms' & out & new & R & M & N & CL & C & S & E & RD).
  rewrite R in R1. injection R1 as <- <-. pose proof (u_start _ _ _ _ _ _ K) as ST. split.
  - intros m w X. rewrite M. specialize (ST m). rewrite X in ST. unfold expected in *. cbn [assoc] in *.
    destruct (memb m temps); [discriminate|]. destruct (assoc m (owned k)) as [[[g z]|]|]; [discriminate|discriminate|].
    destruct (assoc m specials) as [g|] eqn:ES.
    + destruct (memf g new); [eapply u_kept; eauto|exact X].
    + destruct (index_of m guards 0); [discriminate|exact X].
  - intros m NE. destruct (assoc m (owned k)) as [x|] eqn:EO; [right; left; eapply owned_keys; eauto|].
    destruct (assoc m specials) as [g|] eqn:ES; [destruct (special_keys _ _ ES) as (_ & [X|X] & _); auto|].
    destruct (index_of m guards 0) as [f|] eqn:EG.
    + right. right. apply index_nth in EG. destruct EG as (j & _ & X). unfold guards in X. rewrite nth_error_map in X.
      destruct (nth_error headers j) as [c|] eqn:EC; [|discriminate]. cbn in X. injection X as X. exists c.
      split; [eapply nth_error_In; exact EC|exact X].
    + exfalso. apply NE. rewrite M, (ST m). unfold expected. cbn [assoc]. rewrite EO, ES, EG. reflexivity.
Qed.

(** The macros for the users mention only names and macros that exist, except for
    BOOST_METAPARSE_V1_STRING with string literal templates (below). *)
Theorem C82_macros : forall ms hs depth ms' out s,
  untouched ms -> Forall general hs -> (14 <= depth)%nat ->
  preprocess headers depth (includes hs) ms = Some (ms', out) -> standard ms s ->
  (forall m n, In (Offers m n) out -> ~ (literal_templates ms /\ m = BOOST_METAPARSE_V1_STRING) -> declared n out)
  /\ (forall m m', In (OffersMacro m m') out -> 2011 <= s \/ m = BOOST_METAPARSE_DEFINE_ERROR -> ms' m' <> None).
Proof.
  intros ms hs depth ms1 out1 s U G D R1 SS. destruct (have_unit ms U) as (k & v & forb & prov & t & K).
  destruct (whole_run ms k v forb prov t hs depth K G D) as (ms' & out & new & R & M & N & CL & C & S & E & RD).
  rewrite R in R1. injection R1 as <- <-. destruct (offered ms k v forb prov t out new K C E) as (O1 & O2).
  assert (V : v = s).
  { pose proof (u_standard _ _ _ _ _ _ K) as X. unfold standard in *. destruct (ms BOOST_METAPARSE_STD); [congruence|].
    destruct X as [(X1 & X2 & ->)|[(X1 & X2 & ->)|(X1 & ->)]], SS as [(Y1 & Y2 & ->)|[(Y1 & Y2 & ->)|(Y1 & ->)]]; try reflexivity; tauto. }
  subst v. split; [exact O1|]. intros m m' I X. rewrite M. eapply O2; eauto.
Qed.

(** A public header declares the name it is for, in boost::metaparse and in
    boost::metaparse::v1; boost/metaparse.hpp declares all of them. *)
Theorem C82_public : forall ms hs depth ms' out h hv n nv,
  untouched ms -> Forall general hs -> (14 <= depth)%nat ->
  preprocess headers depth (includes hs) ms = Some (ms', out) -> In (h, (hv, (n, nv))) public ->
  (In h hs \/ In h_metaparse hs -> declared n out /\ declared nv out) /\ (In hv hs -> declared nv out).
Proof.
  intros ms hs depth ms1 out1 h hv n nv U G D R1 P. destruct (have_unit ms U) as (k & v & forb & prov & t & K).
  destruct (whole_run ms k v forb prov t hs depth K G D) as (ms' & out & new & R & M & N & CL & C & S & E & RD).
  rewrite R in R1. injection R1 as <- <-.
  destruct (public_declared ms k v forb prov t out new h hv n nv K C E P) as ((P1 & P2) & P3).
  assert (X : forall f, In f hs -> inP (e_all (look t f)) new).
  { intros f I g B. apply CL. exists f. auto. }
  split; [|intros I; apply P2; apply X; exact I]. intros [I|I]; apply P1; [apply X; exact I|].
  apply (C h). apply (X h_metaparse I). exact P3.
Qed.

(** ** Where this fails *)

Definition gcc : macros := fun m => if Pos.eqb m BOOST_GCC then Some 60000 else None.
Definition old_gcc : macros := fun m => if Pos.eqb m BOOST_GCC then Some 40600 else None.
Definition clang_literal : macros :=
  fun m => if Pos.eqb m clang__ then Some 1 else if Pos.eqb m HAS_STRING_LITERAL_TEMPLATES then Some 1 else None.
Lemma gcc_untouched : untouched gcc.
Proof. apply untouched_check; vm_compute; [reflexivity|discriminate]. Qed.
Lemma old_gcc_untouched : untouched old_gcc.
Proof. apply untouched_check; vm_compute; [reflexivity|discriminate]. Qed.
Lemma clang_untouched : untouched clang_literal.
Proof. apply untouched_check; vm_compute; [reflexivity|discriminate]. Qed.
Definition generalb (f : file) : bool :=
  Nat.ltb f (length headers) && negb (memf f (headers_98 ++ headers_11 ++ headers_14)) && negb (Nat.eqb f h_v1_impl_assert_string_length).
Lemma general_check : forall hs, forallb generalb hs = true -> Forall general hs.
Proof.
  intros hs H. apply Forall_forall. intros f I. rewrite forallb_forall in H. apply H in I. unfold generalb in I.
  apply andb_true_iff in I. destruct I as (I & I3). apply andb_true_iff in I. destruct I as (I1 & I2).
  apply Nat.ltb_lt in I1. apply negb_true_iff in I2, I3. apply Nat.eqb_neq in I3.
  assert (X : ~ In f (headers_98 ++ headers_11 ++ headers_14)) by (intros X; apply memf_in in X; congruence).
  rewrite !in_app_iff in X. split; [exact I1|]. tauto.
Qed.

(** A header that is no part of the implementation of one standard and cannot be
    included alone: impl/assert_string_length.hpp does not include limit_string_size.hpp. *)
Theorem C82_alone_refuted : exists f ms,
  untouched ms /\ (f < length headers)%nat /\ ~ In f headers_98 /\ ~ In f headers_11 /\ ~ In f headers_14
  /\ (forall depth, preprocess headers depth (includes [f]) ms = None)
  /\ exists ms' out, preprocess headers 14 (includes [h_limit_string_size; f]) ms = Some (ms', out).
Proof.
  exists h_v1_impl_assert_string_length, gcc. split; [exact gcc_untouched|].
  split; [apply Nat.ltb_lt; vm_compute; reflexivity|].
  assert (X : memf h_v1_impl_assert_string_length (headers_98 ++ headers_11 ++ headers_14) = false) by (vm_compute; reflexivity).
  assert (Y : ~ In h_v1_impl_assert_string_length (headers_98 ++ headers_11 ++ headers_14)) by (intros Y; apply memf_in in Y; congruence).
  rewrite !in_app_iff in Y. split; [tauto|]. split; [tauto|]. split; [tauto|]. split.
  - intros [|depth]; [reflexivity|]. cbn [includes fold_right]. rewrite preprocess_do. cbn [one].
    change (nth_error headers h_v1_impl_assert_string_length) with (Some c_v1_impl_assert_string_length). cbv beta iota.
    unfold c_v1_impl_assert_string_length. rewrite preprocess_if.
    change (holds gcc (Not (Defined BOOST_METAPARSE_V1_IMPL_ASSERT_STRING_LENGTH_HPP))) with true. cbv beta iota.
    destruct depth; reflexivity.
  - assert (Z : match preprocess headers 14 (includes [h_limit_string_size; h_v1_impl_assert_string_length]) gcc with Some _ => true | None => false end = true)
      by (vm_compute; reflexivity).
    destruct (preprocess headers 14 (includes [h_limit_string_size; h_v1_impl_assert_string_length]) gcc) as [[a b]|] eqn:E; [exists a, b; exact E|discriminate].
Qed.

Definition offersb (m n : positive) (l : list event) : bool :=
  existsb (fun e => match e with Offers x y => Pos.eqb m x && Pos.eqb n y | _ => false end) l.
Lemma offersb_ok : forall m n l, offersb m n l = true -> In (Offers m n) l.
Proof.
  intros m n l H. apply existsb_exists in H. destruct H as (e & I & E). destruct e; try discriminate.
  apply andb_true_iff in E. destruct E as (E1 & E2). apply Pos.eqb_eq in E1, E2. subst. exact I.
Qed.
Lemma not_declared : forall n l, declaredb n l = false -> ~ declared n l.
Proof.
  intros n l H D. assert (X : declaredb n l = true); [|congruence]. apply existsb_exists.
  destruct D as [D|D]; [exists (Declares n)|exists (Defines n)]; (split; [exact D|apply Pos.eqb_refl]).
Qed.

(** With string literal templates BOOST_METAPARSE_V1_STRING of v1/string.hpp mentions
    boost::metaparse::string, which that header does not declare. *)
Theorem C82_literal_refuted : exists ms hs ms' out m n,
  untouched ms /\ Forall general hs /\ preprocess headers 14 (includes hs) ms = Some (ms', out)
  /\ In (Offers m n) out /\ ms' m <> None /\ ~ declared n out.
Proof.
  assert (H : match preprocess headers 14 (includes [h_v1_string]) clang_literal with
    | Some (ms', out) => offersb BOOST_METAPARSE_V1_STRING n_string out && negb (declaredb n_string out)
        && is_defined ms' BOOST_METAPARSE_V1_STRING
    | None => false end = true) by (vm_compute; reflexivity).
  destruct (preprocess headers 14 (includes [h_v1_string]) clang_literal) as [[ms' out]|] eqn:E; [|discriminate].
  exists clang_literal, [h_v1_string], ms', out, BOOST_METAPARSE_V1_STRING, n_string. split; [exact clang_untouched|].
  split; [apply general_check; vm_compute; reflexivity|]. split; [exact E|].
  apply andb_true_iff in H. destruct H as (H & H3). apply andb_true_iff in H. destruct H as (H1 & H2).
  split; [apply offersb_ok; exact H1|]. split.
  - unfold is_defined in H3. destruct (ms' BOOST_METAPARSE_V1_STRING); discriminate.
  - apply not_declared. apply negb_true_iff. exact H2.
Qed.

(** For C++98 BOOST_METAPARSE_STRING and BOOST_METAPARSE_STRING_VALUE are defined, but
    the macros they are replaced by are not. *)
Theorem C82_string98_refuted : exists ms hs ms' out,
  untouched ms /\ Forall general hs /\ preprocess headers 14 (includes hs) ms = Some (ms', out)
  /\ forall m m', In (m, m') [(BOOST_METAPARSE_STRING, BOOST_METAPARSE_V1_STRING);
                             (BOOST_METAPARSE_STRING_VALUE, BOOST_METAPARSE_V1_STRING_VALUE)] ->
       In (OffersMacro m m') out /\ ms' m <> None /\ ms' m' = None.
Proof.
  assert (H : match preprocess headers 14 (includes [h_string; h_string_value]) old_gcc with
    | Some (ms', out) =>
        forallb (fun p => existsb (fun e => match e with OffersMacro x y => Pos.eqb (fst p) x && Pos.eqb (snd p) y | _ => false end) out
          && is_defined ms' (fst p) && negb (is_defined ms' (snd p)))
          [(BOOST_METAPARSE_STRING, BOOST_METAPARSE_V1_STRING); (BOOST_METAPARSE_STRING_VALUE, BOOST_METAPARSE_V1_STRING_VALUE)]
    | None => false end = true) by (vm_compute; reflexivity).
  destruct (preprocess headers 14 (includes [h_string; h_string_value]) old_gcc) as [[ms' out]|] eqn:E; [|discriminate].
  exists old_gcc, [h_string; h_string_value], ms', out. split; [exact old_gcc_untouched|].
  split; [apply general_check; vm_compute; reflexivity|]. split; [exact E|].
  intros m m' I. rewrite forallb_forall in H. apply H in I. cbn [fst snd] in I.
  apply andb_true_iff in I. destruct I as (I & I3). apply andb_true_iff in I. destruct I as (I1 & I2). split; [|split].
  - apply existsb_exists in I1. destruct I1 as (e & J & F). destruct e; try discriminate.
    apply andb_true_iff in F. destruct F as (F1 & F2). apply Pos.eqb_eq in F1, F2. subst. exact J.
  - unfold is_defined in I2. destruct (ms' m); discriminate.
  - apply negb_true_iff in I3. unfold is_defined in I3. destruct (ms' m'); [discriminate|reflexivity].
Qed.

(** boost/metaparse.hpp does not bring everything: string_value.hpp is left out. *)
Theorem C82_all_refuted : exists ms ms' out,
  untouched ms /\ preprocess headers 14 (includes [h_metaparse]) ms = Some (ms', out)
  /\ ms' BOOST_METAPARSE_STRING <> None /\ ms' BOOST_METAPARSE_STRING_VALUE = None /\ ~ In (Reads h_string_value) out.
Proof.
  assert (H : match preprocess headers 14 (includes [h_metaparse]) gcc with
    | Some (ms', out) => is_defined ms' BOOST_METAPARSE_STRING && negb (is_defined ms' BOOST_METAPARSE_STRING_VALUE)
        && negb (existsb (fun e => match e with Reads f => Nat.eqb f h_string_value | _ => false end) out)
    | None => false end = true) by (vm_compute; reflexivity).
  destruct (preprocess headers 14 (includes [h_metaparse]) gcc) as [[ms' out]|] eqn:E; [|discriminate].
  exists gcc, ms', out. split; [exact gcc_untouched|]. split; [exact E|].
  apply andb_true_iff in H. destruct H as (H & H3). apply andb_true_iff in H. destruct H as (H1 & H2). split; [|split].
  - unfold is_defined in H1. destruct (ms' BOOST_METAPARSE_STRING); discriminate.
  - apply negb_true_iff in H2. unfold is_defined in H2. destruct (ms' BOOST_METAPARSE_STRING_VALUE); [discriminate|reflexivity].
  - apply negb_true_iff in H3. intros I. assert (X : existsb (fun e => match e with Reads f => Nat.eqb f h_string_value | _ => false end) out = true); [|congruence].
    apply existsb_exists. eexists. split; [exact I|apply Nat.eqb_refl].
Qed.

(** ** Examples *)

(** gcc 6: C++14; the headers of the arithmetic grammar, backwards and one twice *)
Definition some_headers : list file := [h_grammar; h_string; h_foldl; h_one_of; h_grammar; h_build_parser].
Example C82_ex_start : untouched gcc /\ standard gcc 2014 /\ Forall general some_headers.
Proof.
  split; [exact gcc_untouched|]. split.
  - left. split; [|split; reflexivity]. split; [reflexivity|]. split; [reflexivity|]. split; [left; split; reflexivity|].
    intros v X. vm_compute in X. injection X as <-. lia.
  - apply general_check. vm_compute. reflexivity.
Qed.
Example C82_ex_run :
  match preprocess headers 14 (includes some_headers) gcc with
  | Some (ms', out) => (length out, ms' BOOST_METAPARSE_STD, ms' BOOST_METAPARSE_LIMIT_STRING_SIZE, ms' BOOST_METAPARSE_V1_STRING,
      ms' BOOST_METAPARSE_STRING_CASE, length (definitions out))
  | None => (0%nat, None, None, None, None, 0%nat)
  end = (741%nat, Some 2014, Some 32, Some 0, None, 112%nat).
Proof. vm_compute. reflexivity. Qed.
(** not deep enough *)
Example C82_ex_depth : preprocess headers 3 (includes some_headers) gcc = None.
Proof. vm_compute. reflexivity. Qed.
(** gcc 4.6: C++98 *)
Example C82_ex_old : standard old_gcc 1998
  /\ match preprocess headers 14 (includes some_headers) old_gcc with
     | Some (ms', _) => (ms' BOOST_METAPARSE_STD, ms' BOOST_METAPARSE_V1_STRING) | None => (None, None) end = (Some 1998, None).
Proof.
  split; [|vm_compute; reflexivity]. right. right. split; [|reflexivity]. intros (_ & _ & _ & X).
  specialize (X 40600 eq_refl). lia.
Qed.
Example C82_ex_literal : literal_templates clang_literal /\ untouched clang_literal.
Proof. split; [split; vm_compute; discriminate|exact clang_untouched]. Qed.
Example C82_ex_public : In (h_one_of, (h_v1_one_of, (n_one_of, n_v1_one_of))) public.
Proof. apply (nth_error_In public 66). vm_compute. reflexivity. Qed.

Print Assumptions C82_any_order.
Print Assumptions C82_standard.
Print Assumptions C82_same.
Print Assumptions C82_again.
Print Assumptions C82_left_alone.
Print Assumptions C82_macros.
Print Assumptions C82_public.
Print Assumptions C82_alone_refuted.
Print Assumptions C82_literal_refuted.
Print Assumptions C82_string98_refuted.
Print Assumptions C82_all_refuted.
