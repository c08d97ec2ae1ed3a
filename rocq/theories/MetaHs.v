(** example/meta_hs: a small functional language, its parser and the classes
    its programs are turned into.  It is only used from C++11 on
    (example_in_haskell.hpp:11-16). *)

From Coq Require Import String ZArith List Bool.
From Verif Require Import Base Util Combinators Variadic Parsers Deep Messages Grammar Calculator.
Import ListNotations.
Open Scope Z_scope.

(** ** token.hpp *)

(** [always_c<c, string<...>>] *)
Definition always_c_str (c : char) (r : str) : pexpr := PAlways (PLitC c) (VStr r).

(** [token::plus], [minus], [mult] and [div], 33-55 *)
Definition hs_plus : pexpr := PToken (always_c_str 43 (literal ".+.")).
Definition hs_minus : pexpr := PToken (always_c_str 45 (literal ".-.")).
Definition hs_mult : pexpr := PToken (always_c_str 42 (literal ".*.")).
Definition hs_div : pexpr := PToken (always_c_str 47 (literal "./.")).
(** [token::cmp], 57-98 *)
Definition hs_cmp : pexpr :=
  PToken (POneOf
    [PLastOf [PLitC 61; PLitC 61; PReturn (VStr (literal ".==."))];
     PLastOf [PLitC 47; PLitC 61; PReturn (VStr (literal "./=."))];
     PLastOf [PLitC 60; POneOf [always_c_str 61 (literal ".<=."); PReturn (VStr (literal ".<."))]];
     PLastOf [PLitC 62; POptional (always_c_str 61 (literal ".>=.")) (VStr (literal ".>."))]]).
(** [token::open_bracket], [close_bracket], [define] and [int_], 100-112 *)
Definition hs_open : pexpr := PToken (PLitC 40).
Definition hs_close : pexpr := PToken (PLitC 41).
Definition hs_define : pexpr := PToken (PLitC 61).
Definition hs_int : pexpr := PToken PInt.

(** [boost::mpl::push_back] on strings (cpp11/string.hpp:75-84) as it is used in
    128-136 *)
Definition str_push_back : mf2 := fun st c =>
  match st, as_int c with
  | VStr s, Some k => Some (VStr (s ++ [k]))
  | _, _ => None
  end.
(** [not_keyword] of [except_keywords<P, Keywords>], except_keywords.hpp:24-46 *)
Definition not_keyword (kws : list str) : pred1 := fun v =>
  match v with
  | VStr s => Some (forallb (fun k => if list_eq_dec Z.eq_dec s k then false else true) kws)
  | _ => None
  end.
(** [keywords_are_not_allowed], except_keywords.hpp:18, is one of the user's
    messages *)
Definition keywords_are_not_allowed : msg := UserMsg 0.
(** the keywords, token.hpp:138-142 *)
Definition hs_keywords : list str := [literal "if"; literal "then"; literal "else"].
(** [token::name], 114-145 *)
Definition hs_name : pexpr :=
  PToken (PAcceptWhen
    (PFoldlRejectIncompleteStartWithParser
       (POneOf [PAlphanum; PLitC 95])
       (PTransform (POneOf [PLetter; PLitC 95]) (str_push_back (VStr [])))
       str_push_back)
    (not_keyword hs_keywords) keywords_are_not_allowed).
(** [token::if_], [then] and [else_], 147-163 *)
Definition hs_if : pexpr := PToken (PKeyword (literal "if") VVoid_).
Definition hs_then : pexpr := PToken (PKeyword (literal "then") VVoid_).
Definition hs_else : pexpr := PToken (PKeyword (literal "else") VVoid_).

(** ** ast.hpp and semantic.hpp *)

(** [ast::value], [ref], [application], [lambda] and [top_bound], ast.hpp:11-39 *)
Definition ast_value (v : value) : value := VTmpl 11 [v].
Definition ast_ref (v : value) : value := VTmpl 12 [v].
Definition ast_application (f a : value) : value := VTmpl 13 [f; a].
Definition ast_lambda (f x : value) : value := VTmpl 14 [f; x].
Definition ast_top_bound (e : value) : value := VTmpl 15 [e].
(** [boost::mpl::pair] *)
Definition mpl_pair (a b : value) : value := VTmpl 16 [a; b].
(** [curry3<lazy_if>], semantic.hpp:56-57 and 69 *)
Definition curry_lazy_if : value := VTmpl 17 [].

(** [semantic::ref], [value], [lambda] and [application], semantic.hpp:21-51 *)
Definition sem_ref : mf1 := fun v => Some (ast_ref v).
Definition sem_value : mf1 := fun v => Some (ast_value v).
Definition sem_lambda : mf2 := fun f x => Some (ast_lambda f x).
Definition sem_application : mf2 := fun f a => Some (ast_application f a).
(** [semantic::if_], 53-77 *)
Definition sem_if : mf1 := fun v =>
  match at_c v 0, at_c v 1, at_c v 2 with
  | Some c, Some t, Some f =>
      Some (ast_application (ast_application (ast_application (ast_value curry_lazy_if) c) t) f)
  | _, _, _ => None
  end.
(** [semantic::binary_op], 79-98 *)
Definition sem_binary_op : mf2 := fun e c =>
  match seq_front c, seq_back c with
  | Some op, Some b => Some (ast_application (ast_application (ast_ref op) e) b)
  | _, _ => None
  end.
(** [semantic::pair], 100-111 *)
Definition sem_pair : mf1 := fun v =>
  match seq_front v, seq_back v with
  | Some x, Some e => Some (mpl_pair x (ast_top_bound e))
  | _, _ => None
  end.

(** ** grammar.hpp *)

(** [expression] (forward declaration, 38) is the named parser 0; [bracket_exp],
    40-46 *)
Definition bracket_exp : pexpr := PMiddleOf hs_open (PRef 0) hs_close.
(** [if_exp], 48-57 *)
Definition if_exp : pexpr :=
  PTransform
    (PSequence [PLastOf [hs_if; PRef 0]; PLastOf [hs_then; PRef 0]; PLastOf [hs_else; PRef 0]])
    sem_if.
(** [single_exp], 59-66 *)
Definition single_exp : pexpr :=
  POneOf [if_exp; PTransform hs_name sem_ref; PTransform hs_int sem_value; bracket_exp].
(** [application], 68-74 *)
Definition application_exp : pexpr :=
  PFoldlRejectIncompleteStartWithParser single_exp single_exp sem_application.
(** [mult_exp], 76-85 *)
Definition mult_exp : pexpr :=
  PFoldlRejectIncompleteStartWithParser
    (PSequence [POneOf [hs_mult; hs_div]; application_exp]) application_exp sem_binary_op.
(** [plus_exp], 87-96 *)
Definition plus_exp : pexpr :=
  PFoldlRejectIncompleteStartWithParser
    (PSequence [POneOf [hs_plus; hs_minus]; mult_exp]) mult_exp sem_binary_op.
(** [cmp_exp], 98-104, and [expression], 106 *)
Definition cmp_exp : pexpr :=
  PFoldlRejectIncompleteStartWithParser
    (PSequence [hs_cmp; plus_exp]) plus_exp sem_binary_op.
Definition hs_program : program := fun _ => cmp_exp.
(** [definition], 108-120 *)
Definition hs_definition : pexpr :=
  PTransform
    (PSequence [hs_name;
                PFoldrStartWithParser hs_name (PLastOf [hs_define; PRef 0]) sem_lambda])
    sem_pair.
(** [def_parser], 122-126, without [build_parser] *)
Definition def_parser : pexpr := PEntireInput hs_definition end_of_input_expected.

(** ** Classes *)

(** The operators of meta_hs.hpp:28-47: [lazy_plus] ... [lazy_not_equal_to] *)
Inductive hop : Set :=
| HPlus | HMinus | HTimes | HDivides
| HLess | HLessEqual | HGreater | HGreaterEqual | HEqualTo | HNotEqualTo.

(** The templates that are curried: the operators, [semantic::if_::lazy_if]
    (semantic.hpp:56-57) and the ones a user imports (builder.hpp:45-59). *)
Inductive tmpl : Set := TOp (o : hop) | TIf | TUser (k : nat).

(** The trees of ast.hpp:11-39 and the classes made from them: integral
    constants, [lazy::value<V>] and [lazy::application<F, Arg>] (lazy.hpp:13-20),
    [bind<ast::lambda<F, ArgName>, TopEnv, Env>] (bind.hpp:41-57) and
    [impl::next_currying_step] with the arguments given so far (curry.hpp:40-60;
    [curryN<T>], 91-99, is derived from it with no arguments).  Environments are
    [boost::mpl::map]s, the newest entry first. *)
Inductive ast : Type :=
| AValue (c : cls)
| ARef (name : str)
| AApp (f a : ast)
| ALam (f : ast) (arg : str)
| ATop (e : ast)
with cls : Type :=
| KInt (z : Z)
| KBool (b : bool)
| KVal (v : cls)
| KApp (f a : cls)
| KLam (f : ast) (arg : str) (top env : list (str * ast))
| KCurry (t : tmpl) (args : list cls).

Definition environment : Type := list (str * ast).

(** The trees as the parser builds them *)
Fixpoint ast_of (v : value) : option ast :=
  match v with
  | VTmpl 11 [VInt z] => Some (AValue (KInt z))
  | VTmpl 11 [VTmpl 17 []] => Some (AValue (KCurry TIf []))
  | VTmpl 12 [VStr x] => Some (ARef x)
  | VTmpl 13 [f; a] =>
      match ast_of f, ast_of a with Some f', Some a' => Some (AApp f' a') | _, _ => None end
  | VTmpl 14 [f; VStr x] => option_map (fun f' => ALam f' x) (ast_of f)
  | VTmpl 15 [e] => option_map ATop (ast_of e)
  | _ => None
  end.

Definition bind_res {A B : Type} (r : res A) (f : A -> res B) : res B :=
  match r with Ok a => f a | Ill => Ill | Deep => Deep end.
Notation "x <- r ;; k" := (bind_res r (fun x => k)) (at level 61, r at next level, right associativity).

(** [bind<AST, TopEnv, Env>::type], bind.hpp:16-60; [n] bounds the depth.
    [boost::mpl::at] of a missing name is [void_], for which [bind] is only
    declared. *)
Fixpoint bind (n : nat) (top env : environment) (a : ast) : res cls :=
  match n with
  | O => Deep
  | S m =>
      match a with
      | AValue v => Ok (KVal v)
      | ARef x => match lookup x env with Some b => bind m top env b | None => Ill end
      | AApp f b => f' <- bind m top env f ;; b' <- bind m top env b ;; Ok (KApp f' b')
      | ALam f x => Ok (KLam f x top env)
      | ATop e => bind m top top e
      end
  end.

(** The nested [type] of a class that is no [lazy::application] *)
Definition member_type (c : cls) : cls := match c with KVal v => v | _ => c end.

Section Evaluation.

(** The templates the user imports: number of arguments and the value for
    integral constants.  Simplification: such a template uses [A::type::value]
    of its arguments and nothing else, as [double_number] does. *)
Variable users : nat -> nat * (list Z -> option Z).

Definition arity (t : tmpl) : nat :=
  match t with TOp _ => 2 | TIf => 3 | TUser k => fst (users k) end.

Definition hop_result (o : hop) (x y : Z) : option cls :=
  let num z := if int_ok z then Some (KInt z) else None in
  match o with
  | HPlus => num (x + y)
  | HMinus => num (x - y)
  | HTimes => num (x * y)
  | HDivides => if y =? 0 then None else num (Z.quot x y)
  | HLess => Some (KBool (x <? y))
  | HLessEqual => Some (KBool (x <=? y))
  | HGreater => Some (KBool (y <? x))
  | HGreaterEqual => Some (KBool (y <=? x))
  | HEqualTo => Some (KBool (x =? y))
  | HNotEqualTo => Some (KBool (negb (x =? y)))
  end.

Definition some_class (o : option cls) : res cls := match o with Some c => Ok c | None => Ill end.

(** [A::type] as an integral constant: [A::type] has to have or to inherit
    [tag] and [value].  Simplification: arithmetic with [bool_] constants is
    ill-formed. *)
Definition int_member (rs : cls -> res cls) (a : cls) : res Z :=
  ra <- rs a ;; rt <- rs (member_type ra) ;;
  match rt with KInt z => Ok z | _ => Ill end.
Definition bool_member (rs : cls -> res cls) (a : cls) : res bool :=
  ra <- rs a ;; rt <- rs (member_type ra) ;;
  match rt with KBool b => Ok b | KInt z => Ok (negb (z =? 0)) | _ => Ill end.
Fixpoint int_members (rs : cls -> res cls) (l : list cls) : res (list Z) :=
  match l with
  | [] => Ok []
  | a :: l' => x <- int_member rs a ;; xs <- int_members rs l' ;; Ok (x :: xs)
  end.

(** [boost::mpl::apply<unpack_args<quoteN<T>>, ArgumentList>::type],
    curry.hpp:74 and 95, with [T] from meta_hs.hpp:28-32, semantic.hpp:56-57.
    The result of [lazy_if] is one of its arguments, not evaluated. *)
Definition run_tmpl (rs : cls -> res cls) (t : tmpl) (args : list cls) : res cls :=
  match t, args with
  | TOp o, [a; b] => x <- int_member rs a ;; y <- int_member rs b ;; some_class (hop_result o x y)
  | TIf, [c; x; y] => b <- bool_member rs c ;; Ok (if b then x else y)
  | TUser k, _ => xs <- int_members rs args ;; some_class (option_map KInt (snd (users k) xs))
  | _, _ => Ill
  end.

(** [boost::mpl::apply_wrap1<c, a>::type]: [apply] is a member of [c] or of one of
    its base classes; bind.hpp:46-56, curry.hpp:49-59 and 68-81 *)
Definition apply_by (rs : cls -> res cls) (n : nat) (c a : cls) : res cls :=
  rc <- rs c ;;
  match rc with
  | KLam f x top env =>
      l <- bind n top ((x, AValue a) :: env) f ;; rl <- rs l ;; Ok (member_type rl)
  | KCurry t args =>
      if Nat.eqb (S (length args)) (arity t) then run_tmpl rs t (args ++ [a])
      else Ok (KCurry t (args ++ [a]))
  | _ => Ill
  end.

(** The class at the end of the chain of base classes of [c]:
    [lazy::application<F, Arg>] is derived from
    [apply_wrap1<F::type, Arg>::type], lazy.hpp:19-20, the others are not
    derived from anything of interest. *)
Fixpoint resolve (n : nat) (c : cls) : res cls :=
  match n with
  | O => Deep
  | S m =>
      match c with
      | KApp f a =>
          rf <- resolve m f ;; b <- apply_by (resolve m) m (member_type rf) a ;; resolve m b
      | _ => Ok c
      end
  end.

(** [apply_wrap1<c, a>::type] *)
Definition apply_class (n : nat) (c a : cls) : res cls := apply_by (resolve n) n c a.

(** [c::value] *)
Definition class_value (n : nat) (c : cls) : res Z :=
  rc <- resolve n c ;; match rc with KInt z => Ok z | _ => Ill end.

(** ** builder.hpp *)

(** [builder<Env>::import<Name, Value>], 32-40 *)
Definition import (name : str) (v : cls) (env : environment) : environment :=
  (name, AValue v) :: env.
(** [builder<Env>::importN<Name, F>], 45-59 *)
Definition import_tmpl (name : str) (t : tmpl) (env : environment) : environment :=
  (name, AValue (KCurry t [])) :: env.

(** [builder<Env>::define<S>], 63-71 *)
Definition define (cfg : config) (n : nat) (s : str) (env : environment) : res environment :=
  match build_parser (eval cfg hs_program n def_parser) s with
  | Built (VTmpl 16 [VStr name; e]) =>
      match ast_of e with Some a => Ok ((name, a) :: env) | None => Ill end
  | BuildOutOfFuel => Deep
  | _ => Ill
  end.

Fixpoint define_all (cfg : config) (n : nat) (l : list str) (env : environment) : res environment :=
  match l with
  | [] => Ok env
  | s :: l' => env' <- define cfg n s env ;; define_all cfg n l' env'
  end.

(** [builder<Env>::get<S>], 73-76: the class it is derived from *)
Definition get (n : nat) (env : environment) (name : str) : res cls :=
  match lookup name env with
  | Some a => c <- bind n env env a ;; r <- resolve n c ;; Ok (member_type r)
  | None => Ill
  end.

(** [f::apply<a1>::type::apply<a2>::type ...] *)
Fixpoint apply_all (n : nat) (c : cls) (args : list Z) : res cls :=
  match args with
  | [] => Ok c
  | z :: args' => b <- apply_class n c (KInt z) ;; apply_all n b args'
  end.
Definition call (n : nat) (env : environment) (name : str) (args : list Z) : res Z :=
  f <- get n env name ;; r <- apply_all n f args ;; class_value n r.

End Evaluation.

(** [meta_hs], meta_hs.hpp:49-61 *)
Definition meta_hs : environment :=
  import_tmpl (literal "./=.") (TOp HNotEqualTo)
  (import_tmpl (literal ".==.") (TOp HEqualTo)
  (import_tmpl (literal ".>=.") (TOp HGreaterEqual)
  (import_tmpl (literal ".>.") (TOp HGreater)
  (import_tmpl (literal ".<=.") (TOp HLessEqual)
  (import_tmpl (literal ".<.") (TOp HLess)
  (import_tmpl (literal "./.") (TOp HDivides)
  (import_tmpl (literal ".*.") (TOp HTimes)
  (import_tmpl (literal ".-.") (TOp HMinus)
  (import_tmpl (literal ".+.") (TOp HPlus) []))))))))).

(** ** example_in_haskell.hpp *)

(** [double_number], double_number.hpp:12-15 *)
Definition example_users (k : nat) : nat * (list Z -> option Z) :=
  (1%nat, fun l => match l with [x] => if int_ok (x * 2) then Some (x * 2) else None | _ => None end).

(** [metafunctions], 33-42 *)
Definition metafunctions (cfg : config) (n : nat) : res environment :=
  define_all cfg n
    [literal "fib n = if n<2 then 1 else fib(n-2) + fib(n-1)";
     literal "fact n = if n<1 then 1 else n * fact(n-1)";
     literal "times4 n = f (f n)";
     literal "times11 n = n * val"]
    (import (literal "val") (KInt 11) (import_tmpl (literal "f") (TUser 0) meta_hs)).

(** ** example_handcrafted.hpp *)

Definition int_only (z : Z) : res Z := if int_ok z then Ok z else Ill.

(** [fib], 20-47 *)
Fixpoint handcrafted_fib (n : nat) (z : Z) : res Z :=
  match n with
  | O => Deep
  | S m =>
      if z <? 2 then Ok 1
      else
        z1 <- int_only (z - 1) ;; x <- handcrafted_fib m z1 ;;
        z2 <- int_only (z - 2) ;; y <- handcrafted_fib m z2 ;; int_only (x + y)
  end.
(** [fact], 49-74 *)
Fixpoint handcrafted_fact (n : nat) (z : Z) : res Z :=
  match n with
  | O => Deep
  | S m =>
      if z <? 1 then Ok 1
      else z1 <- int_only (z - 1) ;; x <- handcrafted_fact m z1 ;; int_only (z * x)
  end.
(** [times4], 76-82, and [times11], 84-90 *)
Definition handcrafted_times4 (z : Z) : res Z := x <- int_only (z * 2) ;; int_only (x * 2).
Definition handcrafted_times11 (z : Z) : res Z := int_only (z * 11).
