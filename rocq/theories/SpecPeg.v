(** Parsing expression grammars with predicates (B. Ford, "Parsing Expression
    Grammars: A Recognition-Based Syntactic Foundation", POPL 2004), and which
    parsing expression a parser expression stands for.  Results, positions and
    error messages are left out: only what is read counts. *)

From Coq Require Import ZArith List Bool.
From Verif Require Import Base Deep Spec SpecDeep.
Import ListNotations.
Open Scope Z_scope.

Inductive parsing_expression : Type :=
| FEps
| FFail
| FClass (P : char -> bool)
| FSeq (a b : parsing_expression)
| FAlt (a b : parsing_expression)
| FStar (a : parsing_expression)
| FNot (a : parsing_expression)
| FName (k : nat).

(** [recognises rules g s r]: on the text [s] the expression [g] succeeds and
    leaves [s'] ([r = Some s']) or fails ([r = None]). *)
Section Recognises.
Variable rules : nat -> parsing_expression.
Inductive recognises : parsing_expression -> str -> option str -> Prop :=
| f_eps s : recognises FEps s (Some s)
| f_fail s : recognises FFail s None
| f_class P c s : P c = true -> recognises (FClass P) (c :: s) (Some s)
| f_class_no P s : not_starting_with (fun c => P c = true) s ->
    recognises (FClass P) s None
| f_seq a b s s1 r : recognises a s (Some s1) -> recognises b s1 r ->
    recognises (FSeq a b) s r
| f_seq_no a b s : recognises a s None -> recognises (FSeq a b) s None
| f_alt a b s s1 : recognises a s (Some s1) -> recognises (FAlt a b) s (Some s1)
| f_alt_other a b s r : recognises a s None -> recognises b s r ->
    recognises (FAlt a b) s r
| f_star_stop a s : recognises a s None -> recognises (FStar a) s (Some s)
| f_star_more a s s1 r : recognises a s (Some s1) -> recognises (FStar a) s1 r ->
    recognises (FStar a) s r
| f_not a s : recognises a s None -> recognises (FNot a) s (Some s)
| f_not_no a s s1 : recognises a s (Some s1) -> recognises (FNot a) s None
| f_name k s r : recognises (rules k) s r -> recognises (FName k) s r.
End Recognises.

Definition fand (a : parsing_expression) := FNot (FNot a).
Definition fany := FClass (fun _ => true).
Fixpoint fseqs (l : list parsing_expression) : parsing_expression :=
  match l with
  | [] => FEps
  | [a] => a
  | a :: l' => FSeq a (fseqs l')
  end.
Fixpoint falts (l : list parsing_expression) : parsing_expression :=
  match l with
  | [] => FFail
  | [a] => a
  | a :: l' => FAlt a (falts l')
  end.
Fixpoint ftimes (k : nat) (a : parsing_expression) : parsing_expression :=
  match k with
  | O => FEps
  | S k' => FSeq a (ftimes k' a)
  end.

(** ** From parsers to parsing expressions *)

(** The parsers that read one character and have it as result ... *)
Fixpoint single (e : pexpr) : Prop :=
  match e with
  | POneChar | POneOfC _ | POneCharExceptC _ => True
  | PAcceptWhen p _ _ | PChangeErrorMessage p _ | PTransformErrorMessage p _ => single p
  | _ => False
  end.

(** ... and the characters they accept. *)
Definition says_yes (pr : pred1) (v : value) : bool :=
  match pr v with Some true => true | _ => false end.
Fixpoint class_of (e : pexpr) (c : char) : bool :=
  match e with
  | POneChar => true
  | POneOfC cs => existsb (Z.eqb c) cs
  | POneCharExceptC cs => negb (existsb (Z.eqb c) cs)
  | PAcceptWhen p pr _ => class_of p c && says_yes pr (VChar c)
  | PChangeErrorMessage p _ | PTransformErrorMessage p _ => class_of p c
  | _ => false
  end.

Fixpoint peg_of (e : pexpr) : parsing_expression :=
  match e with
  | PRef k => FName k
  | PReturn _ => FEps
  | PFail _ => FFail
  | POneChar | POneOfC _ | POneCharExceptC _ => FClass (class_of e)
  | PAcceptWhen _ _ _ => FClass (class_of e)
  | PEmpty _ => FNot fany
  | PKeyword kw _ => fseqs (map (fun c => FClass (Z.eqb c)) kw)
  | PChangeErrorMessage p _ | PTransform p _ | PTransformError p _
  | PTransformErrorMessage p _ | PAlways p _ => peg_of p
  | PLookAhead p => fand (peg_of p)
  | POptional p _ => FAlt (peg_of p) FEps
  | PExcept p _ _ => FNot (peg_of p)
  | PIf p _ _ => FAlt (fand (peg_of p)) FEps
  | PFoldl p _ _ | PFoldr p _ _ => FStar (peg_of p)
  | PFoldl1 p _ _ | PFoldr1 p _ _ => FSeq (peg_of p) (FStar (peg_of p))
  | PFoldlStartWithParser p sp _ => FSeq (peg_of sp) (FStar (peg_of p))
  | PFoldrStartWithParser p sp _ => FSeq (FStar (peg_of p)) (peg_of sp)
  | PIterate p k =>
      if k <? 0 then FSeq (FStar (peg_of p)) FFail else ftimes (Z.to_nat k) (peg_of p)
  | POneOf l => falts (map peg_of l)
  | PSequence l | PSequenceApply _ l => fseqs (map peg_of l)
  | PNthOf k l =>
      if (0 <=? k) && (k <? Z.of_nat (length l)) then fseqs (map peg_of l) else FFail
  | PFirstOf l | PLastOf l =>
      match l with [] => FFail | _ => fseqs (map peg_of l) end
  | PMiddleOf p1 p2 p3 => fseqs [peg_of p1; peg_of p2; peg_of p3]
  | PEntireInput p _ => FSeq (peg_of p) (FNot fany)
  (* not parsing expressions, see [recognition] *)
  | PNative _ | PFailAtFirstCharExpected _ | PFoldlRejectIncomplete _ _ _
  | PFoldlRejectIncomplete1 _ _ _ | PFoldlRejectIncompleteStartWithParser _ _ _
  | PFoldrRejectIncomplete _ _ _ | PFoldrRejectIncomplete1 _ _ _ => FFail
  end.

(** The parsers whose verdict depends on what was read only: no parser written
    by the user, no predicate on results other than characters, no recovery
    from errors depending on where they are. *)
Definition recognition (e : pexpr) : Prop :=
  match e with
  | PNative _ | PFailAtFirstCharExpected _ | PFoldlRejectIncomplete _ _ _
  | PFoldlRejectIncomplete1 _ _ _ | PFoldlRejectIncompleteStartWithParser _ _ _
  | PFoldrRejectIncomplete _ _ _ | PFoldrRejectIncomplete1 _ _ _ => False
  | PAcceptWhen p _ _ => single p
  | PTransformError _ f => keeps_errors f
  | _ => True
  end.

(** ** From parsing expressions to parsers *)

Definition char_in (P : char -> bool) (v : value) : option bool :=
  match v with VChar c => Some (P c) | _ => None end.

Fixpoint parser_of (g : parsing_expression) : pexpr :=
  match g with
  | FEps => PReturn VVoid_
  | FFail => PFail none_of_the_expected_cases_found
  | FClass P => PAcceptWhen POneChar (char_in P) unexpected_character
  | FSeq a b => PSequence [parser_of a; parser_of b]
  | FAlt a b => POneOf [parser_of a; parser_of b]
  | FStar a => PFoldl (parser_of a) (Some VVoid_) (fun st _ => Some st)
  | FNot a => PExcept (parser_of a) VVoid_ expected_to_fail
  | FName k => PRef k
  end.
