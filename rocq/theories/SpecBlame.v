(** Where a parser of a grammar reports its error. *)

From Coq Require Import ZArith List Bool.
From Verif Require Import Base Deep Spec SpecDeep SpecPeg SpecCfg.
Import ListNotations.
Open Scope Z_scope.

(** [Ok s']: accepted, leaving [s']; [Bad t]: rejected, the error being where the
    rest of the text is [t]. *)
Inductive blame_outcome : Type := Ok (s : str) | Bad (t : str).

(** Grammars read as parsers that report the furthest error, and whose repetitions
    fail on an element that is begun but not finished. *)
Section Blames.
Variable rules : nat -> parsing_expression.
Inductive blames : parsing_expression -> str -> blame_outcome -> Prop :=
| b_eps s : blames FEps s (Ok s)
| b_fail s : blames FFail s (Bad s)
| b_class P c s : P c = true -> blames (FClass P) (c :: s) (Ok s)
| b_class_no P s : not_starting_with (fun c => P c = true) s -> blames (FClass P) s (Bad s)
| b_seq a b s s1 o : blames a s (Ok s1) -> blames b s1 o -> blames (FSeq a b) s o
| b_seq_no a b s t : blames a s (Bad t) -> blames (FSeq a b) s (Bad t)
| b_alt a b s s1 : blames a s (Ok s1) -> blames (FAlt a b) s (Ok s1)
| b_alt_other a b s t s1 : blames a s (Bad t) -> blames b s (Ok s1) ->
    blames (FAlt a b) s (Ok s1)
| b_alt_first a b s t t' : blames a s (Bad t) -> blames b s (Bad t') ->
    (length t < length t')%nat -> blames (FAlt a b) s (Bad t)
| b_alt_second a b s t t' : blames a s (Bad t) -> blames b s (Bad t') ->
    (length t' <= length t)%nat -> blames (FAlt a b) s (Bad t')
| b_star_stop a s : blames a s (Bad s) -> blames (FStar a) s (Ok s)
| b_star_incomplete a s t : blames a s (Bad t) -> (length t < length s)%nat ->
    blames (FStar a) s (Bad t)
| b_star_more a s s1 o : blames a s (Ok s1) -> blames (FStar a) s1 o -> blames (FStar a) s o
| b_name k s o : blames (rules k) s o -> blames (FName k) s o.

(** Some word of [g] begins with [u]. *)
Definition begins (g : parsing_expression) (u : str) : Prop :=
  exists v, derives rules g (u ++ v).

(** Every part has a word. *)
Fixpoint productive (g : parsing_expression) : Prop :=
  match g with
  | FEps => True
  | FFail | FNot _ => False
  | FClass P => exists c, P c = true
  | FSeq a b | FAlt a b => productive a /\ productive b
  | FStar a => productive a
  | FName k => exists w, derives rules (rules k) w
  end.

(** One character: nothing is read before the error. *)
Fixpoint one_character (g : parsing_expression) : Prop :=
  match g with
  | FClass _ => True
  | FAlt a b => one_character a /\ one_character b
  | _ => False
  end.

(** Only one character may be given up for the empty word. *)
Fixpoint gives_up_little (g : parsing_expression) : Prop :=
  match g with
  | FSeq a b => gives_up_little a /\ gives_up_little b
  | FAlt a b => (nullable rules b -> one_character a) /\ gives_up_little a /\ gives_up_little b
  | FStar a => gives_up_little a
  | _ => True
  end.
End Blames.

(** ** Parsers that report their errors like that *)

(** As [peg_of], with the repetitions that reject incomplete elements. *)
Fixpoint cfg_of (e : pexpr) : parsing_expression :=
  match e with
  | PRef k => FName k
  | PReturn _ => FEps
  | POneChar | POneOfC _ | POneCharExceptC _ | PAcceptWhen _ _ _ => FClass (class_of e)
  | PKeyword kw _ => fseqs (map (fun c => FClass (Z.eqb c)) kw)
  | PChangeErrorMessage p _ | PTransform p _ | PTransformError p _
  | PTransformErrorMessage p _ | PAlways p _ => cfg_of p
  | POptional p _ => FAlt (cfg_of p) FEps
  | PFoldl p _ _ | PFoldr p _ _ | PFoldlRejectIncomplete p _ _
  | PFoldrRejectIncomplete p _ _ => FStar (cfg_of p)
  | PFoldl1 p _ _ | PFoldr1 p _ _ | PFoldlRejectIncomplete1 p _ _
  | PFoldrRejectIncomplete1 p _ _ => FSeq (cfg_of p) (FStar (cfg_of p))
  | PFoldlStartWithParser p sp _ | PFoldlRejectIncompleteStartWithParser p sp _ =>
      FSeq (cfg_of sp) (FStar (cfg_of p))
  | PFoldrStartWithParser p sp _ => FSeq (FStar (cfg_of p)) (cfg_of sp)
  | PIterate p k => ftimes (Z.to_nat k) (cfg_of p)
  | POneOf l => falts (map cfg_of l)
  | PSequence l | PSequenceApply _ l => fseqs (map cfg_of l)
  | PNthOf k l =>
      if (0 <=? k) && (k <? Z.of_nat (length l)) then fseqs (map cfg_of l) else FFail
  | PFirstOf l | PLastOf l =>
      match l with [] => FFail | _ => fseqs (map cfg_of l) end
  | PMiddleOf p1 p2 p3 => fseqs [cfg_of p1; cfg_of p2; cfg_of p3]
  (* see [blaming] *)
  | _ => FFail
  end.

(** No predicates and no parsers of the user; what is given up by a repetition or gets
    a new error message is one character; error transformers do not move errors. *)
Definition blaming (e : pexpr) : Prop :=
  match e with
  | PNative _ | PEmpty _ | PLookAhead _ | PExcept _ _ _ | PIf _ _ _
  | PFailAtFirstCharExpected _ | PEntireInput _ _ => False
  | PAcceptWhen p _ _ => single p
  | PChangeErrorMessage p _ | PFoldl p _ _ | PFoldl1 p _ _ | PFoldr p _ _ | PFoldr1 p _ _
  | PFoldlStartWithParser p _ _ | PFoldrStartWithParser p _ _ => one_character (cfg_of p)
  | PTransformError _ f => forall m q, exists m', f m q = Reject m' q
  | PIterate _ k => 0 <= k
  | _ => True
  end.

(** The position [q] is where the rest [t] of the text [s] begins. *)
Definition rest_at (s : str) (ps : pos) (t : str) (q : pos) : Prop :=
  exists u, s = u ++ t /\ walk ps u q.

Definition cfg_rules (env : program) : nat -> parsing_expression := fun k => cfg_of (env k).

(** [u] is the longest beginning of the text [u ++ t] some word begins with. *)
Definition longest_beginning (rules : nat -> parsing_expression) (g : parsing_expression)
  (u t : str) : Prop :=
  begins rules g u /\ match t with [] => True | c :: _ => ~ begins rules g (u ++ [c]) end.

(** One character decides in all rules of the program and [e]; they have words and
    give up little. *)
Definition blaming_grammar (env : program) (e : pexpr) (follow : nat -> char -> Prop)
  (F : char -> Prop) : Prop :=
  ll1_grammar (cfg_rules env) follow /\ one_decides (cfg_rules env) follow (cfg_of e) F
  /\ (forall k, productive (cfg_rules env) (cfg_rules env k)) /\ productive (cfg_rules env) (cfg_of e)
  /\ (forall k, gives_up_little (cfg_rules env) (cfg_rules env k))
  /\ gives_up_little (cfg_rules env) (cfg_of e).
