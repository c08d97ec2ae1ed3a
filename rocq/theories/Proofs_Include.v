(** Lemmas about including headers: a header is followed with what is known about
    the headers before it, once for every kind of compiler. *)

From Coq Require Import ZArith NArith List Bool Lia Permutation.
From Verif Require Import Include HeaderFiles SpecInclude.
Import ListNotations.
Open Scope Z_scope.

(** ** Kinds of compilers *)

Inductive kstd := K98 | K11 | K14.
Record kind := mkkind { k_std : kstd; k_clang : option bool; k_ext : option bool; k_sun : option bool }.
Definition k11 (k : kind) : bool := match k_std k with K98 => false | _ => true end.
Definition k14 (k : kind) : bool := match k_std k with K14 => true | _ => false end.
Definition k_literal (k : kind) : bool :=
  match k_clang k, k_ext k with Some true, Some true => true | _, _ => false end.

Definition memb (m : macro) (l : list macro) : bool := existsb (Pos.eqb m) l.
Definition memf (f : file) (l : list file) : bool := existsb (Nat.eqb f) l.
Lemma memb_in : forall m l, memb m l = true <-> In m l.
Proof.
  intros. unfold memb. rewrite existsb_exists. split.
  - intros (x & I & E). apply Pos.eqb_eq in E. subst. exact I.
  - intros I. exists m. split; auto. apply Pos.eqb_refl.
Qed.
Lemma memf_in : forall m l, memf m l = true <-> In m l.
Proof.
  intros. unfold memf. rewrite existsb_exists. split.
  - intros (x & I & E). apply Nat.eqb_eq in E. subst. exact I.
  - intros I. exists m. split; auto. apply Nat.eqb_refl.
Qed.

(** ** Which macro is whose *)

Definition temps : list macro :=
  [BOOST_METAPARSE_ARGN; BOOST_METAPARSE_DEFINE_IS_NONE; BOOST_METAPARSE_LAST_OF_N; BOOST_METAPARSE_NTH_OF_CASE;
   BOOST_METAPARSE_NTH_OF_N; BOOST_METAPARSE_ONE_OF_C_CASE; BOOST_METAPARSE_ONE_OF_C_LIT; BOOST_METAPARSE_POP_FRONT;
   BOOST_METAPARSE_SEQUENCE_APPLY; BOOST_METAPARSE_SEQUENCE_APPLY_ARG; BOOST_METAPARSE_SEQUENCE_CASE;
   BOOST_METAPARSE_SEQUENCE_N; BOOST_METAPARSE_STRING_CASE; BOOST_METAPARSE_UPDATE; BOOST_METAPARSE_USING;
   BOOST_METAPARSE_WRAP; BOOST_NO_SCALAR_VALUE; MPLLBIS_METAPARSE_ONE_CHAR_EXCEPT_CASE].
Definition specials : list (macro * file) :=
  [(BOOST_METAPARSE_STD, h_config);
   (BOOST_METAPARSE_VARIADIC_STRING, h_config);
   (BOOST_NO_CONSTEXPR_C_STR, h_config);
   (BOOST_METAPARSE_LIMIT_STRING_SIZE, h_limit_string_size);
   (BOOST_METAPARSE_LIMIT_SEQUENCE_SIZE, h_limit_sequence_size);
   (BOOST_METAPARSE_LIMIT_ONE_OF_SIZE, h_limit_one_of_size);
   (BOOST_METAPARSE_LIMIT_ONE_CHAR_EXCEPT_SIZE, h_limit_one_char_except_size)].
Definition special : list file :=
  [h_config; h_limit_string_size; h_limit_sequence_size; h_limit_one_of_size; h_limit_one_char_except_size].

Fixpoint assoc {A : Type} (m : macro) (l : list (macro * A)) : option A :=
  match l with
  | [] => None
  | (x, a) :: l => if Pos.eqb m x then Some a else assoc m l
  end.
Fixpoint index_of (m : macro) (l : list (option macro)) (i : nat) : option nat :=
  match l with
  | [] => None
  | Some x :: l => if Pos.eqb m x then Some i else index_of m l (S i)
  | None :: l => index_of m l (S i)
  end.
Definition guards : list (option macro) := map guard_of headers.

Section Kind.
Variable k : kind.

(** the macros that stay, and the header that defines each of them *)
Definition owned : list (macro * option (file * Z)) :=
  [(BOOST_METAPARSE_DEFINE_ERROR, Some (h_define_error, 0));
   (BOOST_METAPARSE_V1_DEFINE_ERROR, Some (h_v1_define_error, 0));
   (BOOST_METAPARSE_STRING, Some (h_string, 0));
   (BOOST_METAPARSE_V1_STRING,
     if k11 k then Some (if k_literal k then h_v1_cpp11_string else h_v1_cpp11_impl_string, 0) else None);
   (BOOST_METAPARSE_STRING_VALUE, Some (h_string_value, 0));
   (BOOST_METAPARSE_V1_STRING_VALUE, if k11 k then Some (h_v1_string_value, 0) else None);
   (BOOST_METAPARSE_V1_CONFIG_NO_BOOST_METAPARSE_STRING, if k11 k then None else Some (h_v1_cpp98_string, 1));
   (BOOST_METAPARSE_V1_STRING_AT, if k11 k then Some (h_v1_cpp11_impl_string_at, 0) else None);
   (BOOST_METAPARSE_VERSION, Some (h_version, 0));
   (BOOST_NO_CHAR, Some (h_v1_impl_no_char, 0))].

Definition not_read : list file :=
  h_v1_impl_assert_string_length
  :: (if k_literal k then [h_v1_cpp11_impl_string] else [])
  ++ match k_std k with K98 => headers_11 ++ headers_14 | K11 => headers_98 ++ headers_14 | K14 => [h_v1_cpp11_one_of_c; h_v1_cpp11_impl_any_of_c; h_v1_cpp11_impl_or_c] ++ headers_98 end.
Fixpoint bits (l : list file) : N :=
  match l with [] => 0%N | f :: l => N.setbit (bits l) (N.of_nat f) end.
Definition has_bit (b : N) (f : file) : bool := N.testbit b (N.of_nat f).

(** ** Following a header *)

Record entry := mkentry { e_all : N; e_own : list event; e_depth : nat }.
Record found := mkfound { a_known : N; a_local : list (macro * Z); a_own : list event; a_depth : nat }.

(** one header needs another one to be included before *)
Definition requires (f : file) : list file := if Nat.eqb f h_v1_cpp11_impl_string then [h_limit_string_size] else [].

Section Table.
Variable forbidden : N.
Variable providers : name -> list file.
Variable table : file -> entry.
Variable me : file.

Definition declaredb (n : name) (l : list event) : bool :=
  existsb (fun e => match e with Declares x | Defines x => Pos.eqb n x | _ => false end) l.

Definition knows (a : found) (m : macro) : option bool :=
  if match assoc m (a_local a) with Some _ => true | None => false end then Some true
  else if memb m temps then Some false
  else match assoc m owned with
  | Some (Some (g, _)) =>
      if Nat.eqb g me then Some false
      else if has_bit (a_known a) g then Some true
      else if has_bit forbidden g then Some false else None
  | Some None => Some false
  | None =>
      match assoc m specials with
      | Some g => if memb m settings && has_bit (a_known a) g then Some true else None
      | None => if Pos.eqb m SUNPRO_CC then k_sun k else None
      end
  end.

Fixpoint decides (a : found) (c : cond) : option bool :=
  match c with
  | Defined m => knows a m
  | Nonzero m => if Pos.eqb m clang__ then k_clang k
      else if Pos.eqb m HAS_STRING_LITERAL_TEMPLATES then k_ext k else None
  | AtLeast m z =>
      if Pos.eqb m BOOST_METAPARSE_STD && has_bit (a_known a) h_config then
        if z =? 2011 then Some (k11 k) else if z =? 2014 then Some (k14 k) else None
      else None
  | Above m z =>
      if Pos.eqb m BOOST_METAPARSE_LIMIT_STRING_SIZE && has_bit (a_known a) h_limit_string_size && (z =? 2048)
      then Some false else None
  | Not d => option_map negb (decides a d)
  | _ => None
  end.

Definition adds (a : found) (e : event) : found :=
  mkfound (a_known a) (a_local a) (a_own a ++ [e]) (a_depth a).
Definition step (a : found) (x : directive) : option found :=
  match x with
  | Include g =>
      if Nat.ltb g me && negb (has_bit forbidden g) && match a_local a with [] => true | _ => false end
         && forallb (has_bit (a_known a)) (requires g)
      then Some (mkfound (N.lor (a_known a) (e_all (table g))) [] (a_own a) (Nat.max (a_depth a) (S (e_depth (table g)))))
      else None
  | Define m v =>
      match assoc m (a_local a) with
      | Some _ => None
      | None =>
          if memb m temps || match assoc m owned with Some (Some (g, w)) => Nat.eqb g me && (v =? w) | _ => false end
          then Some (mkfound (a_known a) ((m, v) :: a_local a) (a_own a) (a_depth a)) else None
      end
  | Undef m =>
      if memb m temps then
        Some (mkfound (a_known a) (filter (fun p => negb (Pos.eqb m (fst p))) (a_local a)) (a_own a) (a_depth a))
      else None
  | Error => None
  | Needs m => match knows a m with Some true => Some a | _ => None end
  | Says (Reads _) => None
  | Says (Uses n) =>
      if declaredb n (a_own a)
         || existsb (fun g => has_bit (a_known a) g && declaredb n (e_own (table g))) (providers n)
      then Some (adds a (Uses n)) else None
  | Says e => Some (adds a e)
  end.

Fixpoint follow (c : code) (a : found) : option found :=
  match c with
  | Done => Some a
  | Do x c' => match step a x with Some a' => follow c' a' | None => None end
  | If x yes no c' =>
      match decides a x with
      | Some b => match follow (if b then yes else no) a with Some a' => follow c' a' | None => None end
      | None => None
      end
  end.

(** the includes in front of the include guard, and the rest *)
Fixpoint front (c : code) : list file * code :=
  match c with
  | Do (Include g) c' => let (l, r) := front c' in (g :: l, r)
  | _ => ([], c)
  end.
Definition stays (l : list (macro * Z)) : bool :=
  forallb (fun p => negb (memb (fst p) temps)) l
  && forallb (fun p => match snd p with
       | Some (g, v) => if Nat.eqb g me then match assoc (fst p) l with Some w => v =? w | None => false end else true
       | None => true end) owned.
Definition enter (c : code) : option entry :=
  let (l, r) := front c in
  match follow (includes l) (mkfound (bits (requires me)) [] [] 0) with
  | None => None
  | Some a =>
      match r with
      | Done => Some (mkentry (a_known a) [] (a_depth a))
      | If (Not (Defined m)) (Do (Define m' 0) body) Done Done =>
          if Pos.eqb m m' then
            match follow body a with
            | Some b => if stays (a_local b)
                then Some (mkentry (N.setbit (a_known b) (N.of_nat me)) (a_own b) (a_depth b)) else None
            | None => None
            end
          else None
      | _ => None
      end
  end.
End Table.

(** ** The table *)

Inductive trie (A : Type) := Leaf | Node (l : trie A) (x : option A) (r : trie A).
Arguments Leaf {A}. Arguments Node {A}.
Fixpoint get {A} (t : trie A) (p : positive) : option A :=
  match t, p with
  | Leaf, _ => None
  | Node _ x _, xH => x
  | Node l _ _, xO p => get l p
  | Node _ _ r, xI p => get r p
  end.
Fixpoint put {A} (t : trie A) (p : positive) (a : A) : trie A :=
  match p with
  | xH => match t with Leaf => Node Leaf (Some a) Leaf | Node l _ r => Node l (Some a) r end
  | xO p => match t with Leaf => Node (put Leaf p a) None Leaf | Node l x r => Node (put l p a) x r end
  | xI p => match t with Leaf => Node Leaf None (put Leaf p a) | Node l x r => Node l x (put r p a) end
  end.

Fixpoint declares (c : code) : list name :=
  match c with
  | Done => []
  | Do (Says (Declares n)) c' | Do (Says (Defines n)) c' => n :: declares c'
  | Do _ c' => declares c'
  | If _ y n c' => declares y ++ declares n ++ declares c'
  end.
Definition provide (t : trie (list file)) (p : file * code) : trie (list file) :=
  fold_left (fun t n => put t n (fst p :: match get t n with Some l => l | None => [] end)) (declares (snd p)) t.
Definition numbered : list (file * code) := combine (seq 0 (length headers)) headers.
Definition all_providers : trie (list file) := fold_left provide numbered Leaf.

Definition nothing : entry := mkentry 0 [] 0.
Definition key (f : file) : positive := Pos.of_succ_nat f.
Definition look (t : trie entry) (f : file) : entry := match get t (key f) with Some e => e | None => nothing end.
Definition look_name (t : trie (list file)) (n : name) : list file := match get t n with Some l => l | None => [] end.
Definition build (forb : N) (prov : trie (list file)) : trie entry :=
  fold_left (fun t p =>
    put t (key (fst p))
      (if memf (fst p) special then mkentry (N.setbit 0 (N.of_nat (fst p))) [] 0
       else match enter forb (look_name prov) (look t) (fst p) (snd p) with Some e => e | None => nothing end))
    numbered Leaf.

Definition event_eqb (a b : event) : bool :=
  match a, b with
  | Reads f, Reads g => Nat.eqb f g
  | Declares n, Declares m | Defines n, Defines m | Uses n, Uses m => Pos.eqb n m
  | Offers m n, Offers m' n' | OffersMacro m n, OffersMacro m' n' => Pos.eqb m m' && Pos.eqb n n'
  | _, _ => false
  end.
Fixpoint events_eqb (a b : list event) : bool :=
  match a, b with
  | [], [] => true
  | x :: a, y :: b => event_eqb x y && events_eqb a b
  | _, _ => false
  end.
Definition entry_eqb (a b : entry) : bool :=
  N.eqb (e_all a) (e_all b) && events_eqb (e_own a) (e_own b) && Nat.eqb (e_depth a) (e_depth b).
Definition forbidden_bits : N := bits not_read.

Fixpoint distinct (l : list name) (t : trie unit) : bool :=
  match l with
  | [] => true
  | n :: l => match get t n with Some _ => false | None => distinct l (put t n tt) end
  end.
Definition entries_ok (forb : N) (prov : trie (list file)) (t : trie entry) : bool :=
  forallb (fun p =>
    has_bit forb (fst p)
    || Nat.leb (e_depth (look t (fst p))) 13
       && (if memf (fst p) special
           then entry_eqb (look t (fst p)) (mkentry (N.setbit 0 (N.of_nat (fst p))) [] 0)
           else match enter forb (look_name prov) (look t) (fst p) (snd p) with
                | Some e => entry_eqb (look t (fst p)) e
                | None => false
                end)) numbered.
Definition definitions_ok (forb : N) (t : trie entry) : bool :=
  distinct (flat_map (fun p => if has_bit forb (fst p) then [] else definitions (e_own (look t (fst p)))) numbered) Leaf.
(** the include guards and the macros of the special files *)
Definition untouchable (m : macro) : bool :=
  negb (memb m temps) && match assoc m owned with None => true | Some _ => false end.
Definition guards_ok : bool :=
  forallb (fun p => match guard_of (snd p) with
    | Some m => match index_of m guards 0 with Some i => Nat.eqb i (fst p) | None => false end
        && untouchable m && match assoc m specials with None => true | Some _ => false end
    | None => true
    end) numbered.
Fixpoint asked (c : cond) : list macro :=
  match c with
  | Defined m | Nonzero m | AtLeast m _ | Above m _ | Below m _ | Equals m _ => [m]
  | Not c => asked c
  | And c d | Or c d => asked c ++ asked d
  end.
Fixpoint mentioned (c : code) : list macro :=
  match c with
  | Done => []
  | Do (Define m _) c' | Do (Undef m) c' | Do (Needs m) c' => m :: mentioned c'
  | Do _ c' => mentioned c'
  | If x y n c' => asked x ++ mentioned y ++ mentioned n ++ mentioned c'
  end.
(** no includes, nothing undefined, nothing said *)
Fixpoint plain (c : code) : bool :=
  match c with
  | Done => true
  | Do (Define _ _) c' => plain c'
  | Do _ _ => false
  | If _ y n c' => plain y && plain n && plain c'
  end.
Definition special_ok (p : file * code) : bool :=
  let (g, c) := p in
  plain c
  && forallb (fun m => untouchable m && match assoc m specials with
       | Some g' => Nat.eqb g' g
       | None => match index_of m guards 0 with Some f => Nat.eqb f g | None => true end
       end) (mentioned c)
  && forallb (fun q => if Nat.eqb (snd q) g then memb (fst q) (mentioned c) else true) specials
  && forallb (fun m => match assoc m specials with Some _ => true | None =>
        match index_of m guards 0 with Some f => true | None => false end end) (defines c)
  && match c with If (Not (Defined _)) _ Done Done => true | _ => false end.
Definition macros_ok : bool :=
  guards_ok
  && forallb (fun q => untouchable (fst q) && memf (snd q) special) specials
  && forallb (fun q => match snd q with Some (g, _) => negb (memf g special) | None => true end) owned
  && forallb (fun p => if memf (fst p) special then special_ok p else true) numbered
  && forallb (fun p => untouchable (fst p)) [(clang__, tt); (HAS_STRING_LITERAL_TEMPLATES, tt); (SUNPRO_CC, tt)].
(** the macros for the users *)
Definition offer_ok (prov : trie (list file)) (t : trie entry) (f : file) (e : event) : bool :=
  match e with
  | Offers m n =>
      k_literal k && Pos.eqb m BOOST_METAPARSE_V1_STRING
      || existsb (fun g => has_bit (e_all (look t f)) g && declaredb n (e_own (look t g))) (look_name prov n)
  | OffersMacro m m' =>
      negb (k11 k) && negb (Pos.eqb m BOOST_METAPARSE_DEFINE_ERROR)
      || match assoc m' owned with
         | Some (Some (g, _)) => has_bit (e_all (look t f)) g
         | Some None => false
         | None => match assoc m' specials with
                   | Some g => memb m' settings && has_bit (e_all (look t f)) g
                   | None => false
                   end
         end
  | _ => true
  end.
Definition offers_ok (forb : N) (prov : trie (list file)) (t : trie entry) : bool :=
  forallb (fun p => has_bit forb (fst p) || forallb (offer_ok prov t (fst p)) (e_own (look t (fst p)))) numbered.
Definition provides_ok (prov : trie (list file)) (t : trie entry) (f : file) (n : name) : bool :=
  existsb (fun g => has_bit (e_all (look t f)) g && declaredb n (e_own (look t g))) (look_name prov n).
Definition public_ok (prov : trie (list file)) (t : trie entry) : bool :=
  forallb (fun q => match q with
    (h, (hv, (n, nv))) =>
      provides_ok prov t h n
      && provides_ok prov t hv nv
      && has_bit (e_all (look t h)) hv
      && has_bit (e_all (look t h_metaparse)) h
    end) public.
Definition correct (prov : trie (list file)) : bool :=
  let forb := forbidden_bits in
  let t := build forb prov in
  entries_ok forb prov t && definitions_ok forb t && macros_ok && offers_ok forb prov t && public_ok prov t.
End Kind.
Arguments Leaf {A}. Arguments Node {A}.

Definition kinds : list kind :=
  mkkind K98 None None None
  :: flat_map (fun s => flat_map (fun sun => [mkkind s (Some false) None (Some sun); mkkind s (Some true) (Some false) (Some sun);
       mkkind s (Some true) (Some true) (Some sun)]) [true; false]) [K11; K14].

Lemma kinds_correct : forallb (fun k => correct k all_providers) kinds = true.
Proof. vm_compute. reflexivity. Qed.

(** every macro of the library that is not a setting is defined by a header *)
Definition all_defined : list macro := flat_map defines headers.
Definition start_ok : bool :=
  forallb (fun m => memb m all_defined && negb (memb m settings))
    (temps ++ map fst (owned (mkkind K98 None None None)) ++ [BOOST_METAPARSE_VARIADIC_STRING; BOOST_NO_CONSTEXPR_C_STR]
      ++ flat_map (fun o => match o with Some m => [m] | None => [] end) guards).
Lemma start_is_ok : start_ok = true.
Proof. vm_compute. reflexivity. Qed.
