(** The preprocessor, as far as the headers of the library need it: including
    files, defining macros and conditional parts (C++ [cpp.include], [cpp.cond],
    [cpp.replace]).  The text between the directives is given by what it says:
    which names it declares, defines and uses.  The headers themselves are in
    HeaderFiles.v. *)

From Coq Require Import ZArith List Bool.
Import ListNotations.
Open Scope Z_scope.

Definition macro := positive.
Definition name := positive.
Definition file := nat.

(** What the text of a header says.  [Offers m n]: the replacement of the macro [m]
    that is defined for the users mentions the name [n]; [OffersMacro]: the macro. *)
Inductive event :=
| Reads (f : file)
| Declares (n : name)
| Defines (n : name)
| Uses (n : name)
| Offers (m : macro) (n : name)
| OffersMacro (m m' : macro).

(** The conditions of #if, #ifdef and #ifndef. *)
Inductive cond :=
| Defined (m : macro)
| Nonzero (m : macro)
| AtLeast (m : macro) (z : Z)
| Above (m : macro) (z : Z)
| Below (m : macro) (z : Z)
| Equals (m : macro) (z : Z)
| Not (c : cond)
| And (c d : cond)
| Or (c d : cond).

(** The directives; [Needs m]: the text mentions the macro [m] of the library,
    which makes no sense without the macro. *)
Inductive directive :=
| Include (f : file)
| Define (m : macro) (v : Z)
| Undef (m : macro)
| Error
| Needs (m : macro)
| Says (e : event).

Inductive code :=
| Done
| Do (a : directive) (k : code)
| If (c : cond) (yes no : code) (k : code).
Notation "a ;; k" := (Do a k) (at level 60, right associativity).

(** The macros that are defined, with their values. *)
Definition macros := macro -> option Z.
Definition define (ms : macros) (m : macro) (v : Z) : macros :=
  fun x => if Pos.eqb x m then Some v else ms x.
Definition undef (ms : macros) (m : macro) : macros :=
  fun x => if Pos.eqb x m then None else ms x.
(** In a condition a name that is not a macro is 0. *)
Definition value_of (ms : macros) (m : macro) : Z := match ms m with Some v => v | None => 0 end.
Definition is_defined (ms : macros) (m : macro) : bool := match ms m with Some _ => true | None => false end.

Fixpoint holds (ms : macros) (c : cond) : bool :=
  match c with
  | Defined m => is_defined ms m
  | Nonzero m => negb (value_of ms m =? 0)
  | AtLeast m z => z <=? value_of ms m
  | Above m z => z <? value_of ms m
  | Below m z => value_of ms m <? z
  | Equals m z => value_of ms m =? z
  | Not d => negb (holds ms d)
  | And d e => holds ms d && holds ms e
  | Or d e => holds ms d || holds ms e
  end.

(** Preprocessing: the macros afterwards and what was said, [None] when there is an
    error (#error, a macro defined again as something else) or the includes are nested
    deeper than [depth]. *)
Section Preprocess.
Variable db : list code.

Fixpoint preprocess (depth : nat) : code -> macros -> option (macros * list event) :=
  fix go (c : code) (ms : macros) {struct c} : option (macros * list event) :=
    match c with
    | Done => Some (ms, [])
    | Do a k =>
        match (match a with
               | Include f =>
                   match depth, nth_error db f with
                   | S d, Some c' =>
                       match preprocess d c' ms with
                       | Some (ms', l) => Some (ms', Reads f :: l)
                       | None => None
                       end
                   | _, _ => None
                   end
               | Define m v =>
                   match ms m with
                   | Some w => if w =? v then Some (ms, []) else None
                   | None => Some (define ms m v, [])
                   end
               | Undef m => Some (undef ms m, [])
               | Error => None
               | Needs m => if is_defined ms m then Some (ms, []) else None
               | Says e => Some (ms, [e])
               end) with
        | Some (ms', l) =>
            match go k ms' with
            | Some (ms'', l') => Some (ms'', l ++ l')
            | None => None
            end
        | None => None
        end
    | If x yes no k =>
        match go (if holds ms x then yes else no) ms with
        | Some (ms', l) =>
            match go k ms' with
            | Some (ms'', l') => Some (ms'', l ++ l')
            | None => None
            end
        | None => None
        end
    end.
End Preprocess.

(** A source file that includes [hs]. *)
Definition includes (hs : list file) : code := fold_right (fun h k => Include h ;; k) Done hs.
