(** The examples that turn expressions into functions, example/meta_lambda,
    example/compile_to_native_code and example/meta_metaparse, and the calculator
    built with [grammar], example/grammar_calculator. *)

From Coq Require Import ZArith List Bool String.
From Verif Require Import Base Util Combinators Variadic Parsers Deep Messages Grammar Calculator.
Import ListNotations.
Open Scope Z_scope.

(** ** The classes built *)

(** [build_value::apply<V>], meta_lambda/main.cpp:150-167 ([impl<V>]),
    compile_to_native_code/main.cpp:157-172, meta_metaparse/main.cpp:169-184 *)
Definition fun_value : mf1 := fun v => Some (VTmpl 5 [v]).
(** [arg], meta_lambda/main.cpp:169-178, compile_to_native_code/main.cpp:174-183 *)
Definition fun_arg : value := VTmpl 6 [].
(** [build_arg::apply<X>], meta_metaparse/main.cpp:186-201 *)
Definition build_arg : mf1 := fun v => Some (VTmpl 6 [v]).
(** [_plus], [_minus], [_mult] and [_div], meta_lambda/main.cpp:81-138,
    compile_to_native_code/main.cpp:71-145, meta_metaparse/main.cpp:55-143 *)
Definition fun_plus : mf2 := fun a b => Some (VTmpl 7 [a; b]).
Definition fun_minus : mf2 := fun a b => Some (VTmpl 8 [a; b]).
Definition fun_mult : mf2 := fun a b => Some (VTmpl 9 [a; b]).
Definition fun_div : mf2 := fun a b => Some (VTmpl 10 [a; b]).

(** [build_plus::apply<State, C>], meta_lambda/main.cpp:103-110,
    compile_to_native_code/main.cpp:103-110; [build_plus_impl::apply],
    meta_metaparse/main.cpp:87-94: [if_] takes one of two class names *)
Definition build_plus : mf2 := eval_by_front 43 fun_plus fun_minus.
(** [build_mult::apply<State, C>], meta_lambda/main.cpp:140-147,
    compile_to_native_code/main.cpp:147-154; [build_mult_impl::apply],
    meta_metaparse/main.cpp:145-152 *)
Definition build_mult : mf2 := eval_by_front 42 fun_mult fun_div.

(** ** The parser of meta_lambda and compile_to_native_code *)

(** [arg_token], meta_lambda/main.cpp:74, compile_to_native_code/main.cpp:64 *)
Definition arg_token : pexpr := PToken (PLitC 95).
(** [value_exp], 180-182 and 185-187 *)
Definition value_exp : pexpr := POneOf [PTransform int_token fun_value; PAlways arg_token fun_arg].
(** [prod_exp], 184-190 and 189-195 *)
Definition fun_prod_exp : pexpr :=
  PFoldlRejectIncompleteStartWithParser
    (PSequence [POneOf [mult_token; div_token]; value_exp]) value_exp build_mult.
(** [plus_exp], 192-198 and 197-203 *)
Definition fun_plus_exp : pexpr :=
  PFoldlRejectIncompleteStartWithParser
    (PSequence [POneOf [plus_token; minus_token]; fun_prod_exp]) fun_prod_exp build_plus.
(** [expression], 200 and 205, and [metafunction_parser], 202, [function_parser],
    207, without [build_parser] *)
Definition function_parser : pexpr :=
  PEntireInput (PLastOf [PRepeated PSpace; fun_plus_exp]) end_of_input_expected.

(** ** What the classes do *)

(** [apply_wrap1<F, T>::type] in meta_lambda, main.cpp:79-178 *)
Fixpoint apply_fun (f t : value) : option value :=
  match f with
  | VTmpl 5 [v] => Some v
  | VTmpl 6 _ => Some t
  | VTmpl 7 [a; b] =>
      match apply_fun a t, apply_fun b t with Some x, Some y => mpl_plus x y | _, _ => None end
  | VTmpl 8 [a; b] =>
      match apply_fun a t, apply_fun b t with Some x, Some y => mpl_minus x y | _, _ => None end
  | VTmpl 9 [a; b] =>
      match apply_fun a t, apply_fun b t with Some x, Some y => mpl_times x y | _, _ => None end
  | VTmpl 10 [a; b] =>
      match apply_fun a t, apply_fun b t with Some x, Some y => mpl_divides x y | _, _ => None end
  | _ => None
  end.

(** The arithmetic of the type of the argument and the conversion from [int] (not
    part of /repo).  [None]: the behaviour is undefined. *)
Record arithmetic (T : Type) : Type := mkarithmetic {
  t_add : T -> T -> option T;
  t_sub : T -> T -> option T;
  t_mul : T -> T -> option T;
  t_div : T -> T -> option T;
  t_int : Z -> T
}.
Arguments t_add {T} _ _ _.
Arguments t_sub {T} _ _ _.
Arguments t_mul {T} _ _ _.
Arguments t_div {T} _ _ _.
Arguments t_int {T} _ _.

(** What an [operator()] returns: [build_value::apply<V>] returns an [int]
    (compile_to_native_code/main.cpp:166-170), the others a [T]. *)
Inductive returned (T : Type) : Type := RInt (z : Z) | RArg (t : T).
Arguments RInt {T} z.
Arguments RArg {T} t.

Definition as_arg {T : Type} (ar : arithmetic T) (r : returned T) : T :=
  match r with RInt z => t_int ar z | RArg t => t end.
(** [return _left(t) op _right(t);] in a function returning [T]: two [int]s are
    combined as [int]s, otherwise both are converted to [T] (the usual arithmetic
    conversions, for a [T] that an [int] is converted to) *)
Definition native_op {T : Type} (ar : arithmetic T) (iop : Z -> Z -> option Z) (top : T -> T -> option T)
  (a b : returned T) : option (returned T) :=
  match a, b with
  | RInt x, RInt y => option_map (fun z => RArg (t_int ar z)) (iop x y)
  | _, _ => option_map RArg (top (as_arg ar a) (as_arg ar b))
  end.
(** The arithmetic of [int]; overflows and divisions by zero are undefined *)
Definition int_range (z : Z) : option Z := if int_ok z then Some z else None.
Definition i_add (x y : Z) : option Z := int_range (x + y).
Definition i_sub (x y : Z) : option Z := int_range (x - y).
Definition i_mul (x y : Z) : option Z := int_range (x * y).
Definition i_div (x y : Z) : option Z := if y =? 0 then None else int_range (Z.quot x y).
Definition int_arithmetic : arithmetic Z := mkarithmetic Z i_add i_sub i_mul i_div (fun z => z).

(** [operator()] of the objects of compile_to_native_code, main.cpp:69-183, and of
    meta_metaparse, main.cpp:53-201 *)
Fixpoint native {T : Type} (ar : arithmetic T) (f : value) (t : T) : option (returned T) :=
  match f with
  | VTmpl 5 [v] => option_map RInt (as_int v)
  | VTmpl 6 _ => Some (RArg t)
  | VTmpl 7 [a; b] =>
      match native ar a t, native ar b t with
      | Some x, Some y => native_op ar i_add (t_add ar) x y | _, _ => None end
  | VTmpl 8 [a; b] =>
      match native ar a t, native ar b t with
      | Some x, Some y => native_op ar i_sub (t_sub ar) x y | _, _ => None end
  | VTmpl 9 [a; b] =>
      match native ar a t, native ar b t with
      | Some x, Some y => native_op ar i_mul (t_mul ar) x y | _, _ => None end
  | VTmpl 10 [a; b] =>
      match native ar a t, native ar b t with
      | Some x, Some y => native_op ar i_div (t_div ar) x y | _, _ => None end
  | _ => None
  end.

(** ** meta_metaparse/main.cpp *)

(** [boost::mpl::fold<back<Seq>::type, front<Seq>::type, f>] *)
Definition fold_tail (f : mf2) : mf1 := fun v =>
  match seq_front v, seq_back v with
  | Some x, Some (VSeq items) => mpl_fold f items x
  | _, _ => None
  end.

(** The escapes of the C++ literals stand for the characters *)
Definition ws_rule : str :=
  literal "ws ::= (' ' | '" ++ [10] ++ literal "' | '" ++ [13] ++ literal "' | '" ++ [9] ++ literal "')*".

(** The arguments of [grammar] in [g], 211-226.  [keep_front] is 203-209,
    [build_plus] 97-109, [build_mult] 155-167. *)
Definition metaparse_decls : list decl :=
  [Import (literal "int_token") (PToken (PTransform PInt fun_value));
   Rule ws_rule None;
   Rule (literal "plus_token ::= '+' ws") (Some seq_front);
   Rule (literal "minus_token ::= '-' ws") (Some seq_front);
   Rule (literal "mult_token ::= '*' ws") (Some seq_front);
   Rule (literal "div_token ::= '/' ws") (Some seq_front);
   Rule (literal "arg_token ::= '_' ws") (Some seq_front);
   Rule (literal "plus_exp ::= prod_exp ((plus_token | minus_token) prod_exp)*") (Some (fold_tail build_plus));
   Rule (literal "prod_exp ::= value_exp ((mult_token | div_token) value_exp)*") (Some (fold_tail build_mult));
   Rule (literal "value_exp ::= int_token | arg_exp") None;
   Rule (literal "arg_exp ::= arg_token") (Some build_arg)].

(** [entire_input<g>] for a chain of declarations *)
Definition entire_grammar (cfg : config) (n : nat) (start : str) (ds : list decl) : pfun := fun s ps =>
  match add_decls cfg n (empty_grammar start) ds with
  | Ok g => entire_input cfg (grammar_parser cfg no_program n g) end_of_input_expected s ps
  | Ill => Illformed
  | Deep => OutOfFuel
  end.

(** [function_parser], 228, without [build_parser] *)
Definition metaparse_parser (cfg : config) (n : nat) : pfun :=
  entire_grammar cfg n (literal "plus_exp") metaparse_decls.

(** ** grammar_calculator/main.cpp *)

(** [lazy_eval_if<lazy_equal_to<front<_2>, char_<c>>, t<_1, back<_2>>, f<_1, back<_2>>>],
    81-118, as a lambda expression.  [boost::mpl::lambda] makes it a [bind]
    expression, and [bind] evaluates the arguments before the enclosing template
    is instantiated (not part of /repo): both alternatives are evaluated. *)
Definition eager_by_front (c : char) (t f : mf2) : mf2 := fun state v =>
  match front_is_c c v, seq_back v with
  | Some b, Some x =>
      match t state x, f state x with
      | Some y, Some z => Some (if b then y else z)
      | _, _ => None
      end
  | _, _ => None
  end.
(** [prod_action], 92-104, and [plus_action], 106-118 *)
Definition prod_action : mf1 := fold_tail (eager_by_front 42 mpl_times mpl_divides).
Definition plus_action : mf1 := fold_tail (eager_by_front 43 mpl_plus mpl_minus).
(** [int_action], 120-130 *)
Definition int_action : mf1 := fun v =>
  match v with
  | VSeq cs =>
      mpl_fold (fun st c =>
        match mpl_times st (VInt 10), digit_to_int c with
        | Some x, Some y => mpl_plus x y
        | _, _ => None
        end) cs (VInt 0)
  | _ => None
  end.

(** [expression], 132-145: [plus_token] is defined twice, the second time without
    an action *)
Definition calculator_decls : list decl :=
  [Rule (literal "int ::= ('0'|'1'|'2'|'3'|'4'|'5'|'6'|'7'|'8'|'9')+") (Some int_action);
   Rule ws_rule None;
   Rule (literal "int_token ::= int ws") (Some seq_front);
   Rule (literal "plus_token ::= '+' ws") (Some seq_front);
   Rule (literal "minus_token ::= '-' ws") (Some seq_front);
   Rule (literal "mult_token ::= '*' ws") (Some seq_front);
   Rule (literal "div_token ::= '/' ws") (Some seq_front);
   Rule (literal "plus_token ::= '+' ws") None;
   Rule (literal "plus_exp ::= prod_exp ((plus_token | minus_token) prod_exp)*") (Some plus_action);
   Rule (literal "prod_exp ::= int_token ((mult_token | div_token) int_token)*") (Some prod_action)].

(** [calculator_parser], 147, without [build_parser] *)
Definition grammar_calculator (cfg : config) (n : nat) : pfun :=
  entire_grammar cfg n (literal "plus_exp") calculator_decls.
