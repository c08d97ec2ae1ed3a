(** The language of example/meta_hs: the meaning of programs, call by name.  Of the
    model only the types of the trees and environments are used, and [meta_hs], the
    environment programs start from. *)

From Coq Require Import ZArith List Bool.
From Verif Require Import Base Spec SpecGrammar SpecCalc SpecExamples MetaHs SpecHs.
Import ListNotations.
Open Scope Z_scope.

(** ** Programs *)

(** A definition, an imported constant, an imported template. *)
Inductive hs_def : Type :=
| GFun (params : list str) (body : hexp)
| GInt (z : Z)
| GTmpl (k : nat).

(** The newest definition comes first. *)
Definition hs_code : Type := list (str * hs_def).

Fixpoint named {A : Type} (x : str) (l : list (str * A)) : option A :=
  match l with
  | [] => None
  | (y, a) :: l' => if list_eq_dec Z.eq_dec x y then Some a else named x l'
  end.

(** ** Meaning *)

(** Arguments are not evaluated before they are used. *)
Inductive thunk : Type :=
| TInt (z : Z)
| TExp (e : hexp) (scope : list (str * thunk)).

Definition scope : Type := list (str * thunk).

Inductive hval : Type :=
| NInt (z : Z)
| NBool (b : bool)
| NFun (x : str) (xs : list str) (body : hexp) (r : scope)
| NTmpl (k : nat) (args : list thunk).

Inductive op_means : bop -> Z -> Z -> hval -> Prop :=
| om_add : forall x y, is_int (x + y) -> op_means BAdd x y (NInt (x + y))
| om_sub : forall x y, is_int (x - y) -> op_means BSub x y (NInt (x - y))
| om_mul : forall x y, is_int (x * y) -> op_means BMul x y (NInt (x * y))
| om_div : forall x y q, quotient x y q -> is_int q -> op_means BDiv x y (NInt q)
| om_lt : forall x y b, (b = true <-> x < y) -> op_means BLt x y (NBool b)
| om_le : forall x y b, (b = true <-> x <= y) -> op_means BLe x y (NBool b)
| om_gt : forall x y b, (b = true <-> x > y) -> op_means BGt x y (NBool b)
| om_ge : forall x y b, (b = true <-> x >= y) -> op_means BGe x y (NBool b)
| om_eq : forall x y b, (b = true <-> x = y) -> op_means BEq x y (NBool b)
| om_ne : forall x y b, (b = true <-> x <> y) -> op_means BNe x y (NBool b).

(** A number is true unless it is 0. *)
Inductive truth : hval -> bool -> Prop :=
| tr_bool : forall b, truth (NBool b) b
| tr_int : forall z b, (b = true <-> z <> 0) -> truth (NInt z) b.

Section Meaning.

(** The imported templates: number of arguments, and the value if there is one. *)
Variable users : nat -> nat * (list Z -> option Z).
Variable P : hs_code.

Inductive evals : scope -> hexp -> hval -> Prop :=
| ev_num : forall r ds, evals r (HNum ds) (NInt (decimal ds))
| ev_param : forall r x th v, named x r = Some th -> forces th v -> evals r (HVar x) v
| ev_function : forall r x y ys e, named x r = None -> named x P = Some (GFun (y :: ys) e) ->
    evals r (HVar x) (NFun y ys e [])
| ev_expression : forall r x e v, named x r = None -> named x P = Some (GFun [] e) -> evals [] e v ->
    evals r (HVar x) v
| ev_constant : forall r x z, named x r = None -> named x P = Some (GInt z) -> evals r (HVar x) (NInt z)
| ev_template : forall r x k, named x r = None -> named x P = Some (GTmpl k) -> evals r (HVar x) (NTmpl k [])
| ev_call : forall r f a fv v, evals r f fv -> applies fv (TExp a r) v -> evals r (HCall f a) v
| ev_if : forall r c a b cv t v, evals r c cv -> truth cv t -> evals r (if t then a else b) v ->
    evals r (HIf c a b) v
| ev_op : forall r o a b x y v, evals r a (NInt x) -> evals r b (NInt y) -> op_means o x y v ->
    evals r (HOp o a b) v
with forces : thunk -> hval -> Prop :=
| fo_int : forall z, forces (TInt z) (NInt z)
| fo_exp : forall e r v, evals r e v -> forces (TExp e r) v
with applies : hval -> thunk -> hval -> Prop :=
| ap_body : forall x e r th v, evals ((x, th) :: r) e v -> applies (NFun x [] e r) th v
| ap_next : forall x y ys e r th, applies (NFun x (y :: ys) e r) th (NFun y ys e ((x, th) :: r))
| ap_collect : forall k ths th, S (length ths) <> fst (users k) ->
    applies (NTmpl k ths) th (NTmpl k (ths ++ [th]))
| ap_run : forall k ths th zs z, S (length ths) = fst (users k) -> all_force (ths ++ [th]) zs ->
    snd (users k) zs = Some z -> applies (NTmpl k ths) th (NInt z)
with all_force : list thunk -> list Z -> Prop :=
| af_nil : all_force [] []
| af_cons : forall th z ths zs, forces th (NInt z) -> all_force ths zs -> all_force (th :: ths) (z :: zs).

Inductive applies_all : hval -> list Z -> hval -> Prop :=
| aa_nil : forall v, applies_all v [] v
| aa_cons : forall v z v1 zs v2, applies v (TInt z) v1 -> applies_all v1 zs v2 -> applies_all v (z :: zs) v2.

(** [name] applied to [zs] is [z]. *)
Definition call_means (name : str) (zs : list Z) (z : Z) : Prop :=
  exists f, evals [] (HVar name) f /\ applies_all f zs (NInt z).

End Meaning.

(** ** Environments *)

Definition gtree (g : hs_def) : ast :=
  match g with
  | GFun xs e => ATop (lambdas xs (tree e))
  | GInt z => AValue (KInt z)
  | GTmpl k => AValue (KCurry (TUser k) [])
  end.
Definition program_env (P : hs_code) : environment := map (fun xg => (fst xg, gtree (snd xg))) P ++ meta_hs.

(** Names are words; the operators are not. *)
Fixpoint words_in (e : hexp) : Prop :=
  match e with
  | HNum _ => True
  | HVar x => word x
  | HCall f a => words_in f /\ words_in a
  | HIf c a b => words_in c /\ words_in a /\ words_in b
  | HOp _ a b => words_in a /\ words_in b
  end.
Definition well_named (P : hs_code) : Prop := forall x g, In (x, g) P ->
  word x /\ match g with GFun xs e => Forall word xs /\ words_in e | _ => True end.

Definition def_of (d : hdef) : str * hs_def := (d_name d, GFun (d_params d) (d_body d)).

(** ** What the library computes *)

(** A class is a value behind a number of [lazy::value]s.  A literal, a parameter
    or an imported name adds one, the value of an operation has none, a call
    takes one off.  Whatever looks at a value takes off one and no more.  All
    names of an expression have to be known before any of it is evaluated, and
    definitions without parameters are looked into for that. *)
Section Wrapped.

Variable users : nat -> nat * (list Z -> option Z).
Variable P : hs_code.

Inductive usable : list str -> hexp -> Prop :=
| us_num : forall xs ds, usable xs (HNum ds)
| us_param : forall xs x, In x xs -> usable xs (HVar x)
| us_expression : forall xs x e, ~ In x xs -> named x P = Some (GFun [] e) -> usable [] e -> usable xs (HVar x)
| us_global : forall xs x g, ~ In x xs -> named x P = Some g -> (forall e, g <> GFun [] e) -> usable xs (HVar x)
| us_call : forall xs f a, usable xs f -> usable xs a -> usable xs (HCall f a)
| us_if : forall xs c a b, usable xs c -> usable xs a -> usable xs b -> usable xs (HIf c a b)
| us_op : forall xs o a b, usable xs a -> usable xs b -> usable xs (HOp o a b).

(** [evals_at r e k v]: [e] is [v] behind [k] layers *)
Inductive evals_at : scope -> hexp -> nat -> hval -> Prop :=
| ea_num : forall r ds, evals_at r (HNum ds) 1 (NInt (decimal ds))
| ea_param : forall r x th k v, named x r = Some th -> forces_at th k v -> evals_at r (HVar x) (S k) v
| ea_function : forall r x y ys e, named x r = None -> named x P = Some (GFun (y :: ys) e) ->
    evals_at r (HVar x) 0 (NFun y ys e [])
| ea_expression : forall r x e k v, named x r = None -> named x P = Some (GFun [] e) -> evals_at [] e k v ->
    evals_at r (HVar x) k v
| ea_constant : forall r x z, named x r = None -> named x P = Some (GInt z) -> evals_at r (HVar x) 1 (NInt z)
| ea_template : forall r x j, named x r = None -> named x P = Some (GTmpl j) -> evals_at r (HVar x) 1 (NTmpl j [])
| ea_call : forall r f a kf fv k v, evals_at r f kf fv -> (kf <= 1)%nat -> applies_at fv (TExp a r) k v ->
    evals_at r (HCall f a) k v
| ea_if : forall r c a b kc cv t k v, evals_at r c kc cv -> (kc <= 1)%nat -> truth cv t ->
    evals_at r (if t then a else b) k v -> evals_at r (HIf c a b) k v
| ea_op : forall r o a b ka kb x y v, evals_at r a ka (NInt x) -> (ka <= 1)%nat ->
    evals_at r b kb (NInt y) -> (kb <= 1)%nat -> op_means o x y v -> evals_at r (HOp o a b) 0 v
with forces_at : thunk -> nat -> hval -> Prop :=
| fa_int : forall z, forces_at (TInt z) 0 (NInt z)
| fa_exp : forall e r k v, evals_at r e k v -> forces_at (TExp e r) k v
with applies_at : hval -> thunk -> nat -> hval -> Prop :=
| aa_body : forall x e r th k v, usable (x :: map fst r) e -> evals_at ((x, th) :: r) e k v ->
    applies_at (NFun x [] e r) th (pred k) v
| aa_next : forall x y ys e r th, applies_at (NFun x (y :: ys) e r) th 0 (NFun y ys e ((x, th) :: r))
| aa_collect : forall j ths th, S (length ths) <> fst (users j) ->
    applies_at (NTmpl j ths) th 0 (NTmpl j (ths ++ [th]))
| aa_run : forall j ths th zs z, S (length ths) = fst (users j) -> all_force_at (ths ++ [th]) zs ->
    snd (users j) zs = Some z -> applies_at (NTmpl j ths) th 0 (NInt z)
with all_force_at : list thunk -> list Z -> Prop :=
| afa_nil : all_force_at [] []
| afa_cons : forall th k z ths zs, forces_at th k (NInt z) -> (k <= 1)%nat -> all_force_at ths zs ->
    all_force_at (th :: ths) (z :: zs).

(** arguments given from outside *)
Inductive applies_all_at : hval -> list Z -> hval -> Prop :=
| aaa_nil : forall v, applies_all_at v [] v
| aaa_cons : forall v z v1 zs v2, applies_at v (TInt z) 0 v1 -> applies_all_at v1 zs v2 ->
    applies_all_at v (z :: zs) v2.

Definition library_call (name : str) (zs : list Z) (z : Z) : Prop :=
  exists k f, usable [] (HVar name) /\ evals_at [] (HVar name) k f /\ (k <= 1)%nat
    /\ applies_all_at f zs (NInt z).

End Wrapped.

(** ** Programs that do not depend on the wrapping of arguments *)

(** A parameter or a number given to a function as it is ends up in two layers of
    [lazy::value]; these arguments do not. *)
Fixpoint computed (e : hexp) : Prop :=
  match e with
  | HNum _ | HVar _ => False
  | HCall _ _ | HOp _ _ _ => True
  | HIf _ a b => computed a /\ computed b
  end.

(** an imported template, perhaps with some arguments *)
Fixpoint template_call (P : hs_code) (xs : list str) (e : hexp) : Prop :=
  match e with
  | HVar x => ~ In x xs /\ exists k, named x P = Some (GTmpl k)
  | HCall f _ => template_call P xs f
  | _ => False
  end.
(** a function, not a parameter *)
Definition function_name (P : hs_code) (xs : list str) (e : hexp) : Prop :=
  match e with
  | HVar x => ~ In x xs /\ exists y ys b, named x P = Some (GFun (y :: ys) b)
  | _ => False
  end.

(** Every name is a parameter or defined. *)
Fixpoint bound (P : hs_code) (xs : list str) (e : hexp) : Prop :=
  match e with
  | HNum _ => True
  | HVar x => In x xs \/ named x P <> None
  | HCall f a => bound P xs f /\ bound P xs a
  | HIf c a b => bound P xs c /\ bound P xs a /\ bound P xs b
  | HOp _ a b => bound P xs a /\ bound P xs b
  end.

Fixpoint unwrapped (P : hs_code) (xs : list str) (e : hexp) : Prop :=
  match e with
  | HNum _ | HVar _ => True
  | HCall f a => unwrapped P xs f /\ unwrapped P xs a
      /\ (computed a \/ function_name P xs a \/ template_call P xs f)
  | HIf c a b => unwrapped P xs c /\ unwrapped P xs a /\ unwrapped P xs b
  | HOp _ a b => unwrapped P xs a /\ unwrapped P xs b
  end.

Definition unwrapped_program (P : hs_code) : Prop :=
  forall x g, In (x, g) P -> match g with
    | GFun xs e => xs <> [] /\ bound P xs e /\ unwrapped P xs e
    | _ => True
    end.

(** ** The programs of the example *)

Fixpoint fibonacci (n : nat) : Z :=
  match n with
  | O => 1
  | S m => match m with O => 1 | S k => fibonacci m + fibonacci k end
  end.
Fixpoint factorial (n : nat) : Z :=
  match n with O => 1 | S m => Z.of_nat n * factorial m end.

(** example_in_haskell.hpp, 20-42 *)
Definition example_code : hs_code :=
  let n := HVar (text "n") in
  [(text "times11", GFun [text "n"] (HOp BMul n (HVar (text "val"))));
   (text "times4", GFun [text "n"] (HCall (HVar (text "f")) (HCall (HVar (text "f")) n)));
   (text "fact", GFun [text "n"]
      (HIf (HOp BLt n (HNum (text "1"))) (HNum (text "1"))
           (HOp BMul n (HCall (HVar (text "fact")) (HOp BSub n (HNum (text "1")))))));
   (text "fib", GFun [text "n"]
      (HIf (HOp BLt n (HNum (text "2"))) (HNum (text "1"))
           (HOp BAdd (HCall (HVar (text "fib")) (HOp BSub n (HNum (text "2"))))
                     (HCall (HVar (text "fib")) (HOp BSub n (HNum (text "1")))))));
   (text "val", GInt 11); (text "f", GTmpl 0)].
