(** The calculators of example/calculator, example/calculator_with_parens,
    example/calculator_with_parens_and_unary_ops and the parsers of the tutorial
    (doc/getting_started.qbk; its code is in example/getting_started/*.hpp). *)

From Coq Require Import ZArith List Bool.
From Verif Require Import Base Util Combinators Variadic Parsers Deep.
Import ListNotations.
Open Scope Z_scope.

(** ** Arithmetic of boost::mpl (not part of /repo) *)

(** [boost::mpl::plus], [minus], [times], [divides], [negate] on integral
    constants of type [int].  An overflow and a division by zero are not constant
    expressions: the program is ill-formed.  Simplification: the results are
    [integral_c<int, n>], not [int_<n>]; both are [VInt n] here. *)
Definition int_constant (n : Z) : option value := if int_ok n then Some (VInt n) else None.

Definition mpl_arith (op : Z -> Z -> option value) : mf2 := fun v w =>
  match as_int v, as_int w with
  | Some a, Some b => op a b
  | _, _ => None
  end.
Definition mpl_plus : mf2 := mpl_arith (fun a b => int_constant (a + b)).
Definition mpl_minus : mf2 := mpl_arith (fun a b => int_constant (a - b)).
Definition mpl_times : mf2 := mpl_arith (fun a b => int_constant (a * b)).
Definition mpl_divides : mf2 :=
  mpl_arith (fun a b => if b =? 0 then None else int_constant (Z.quot a b)).
Definition mpl_negate : mf1 := fun v =>
  match as_int v with Some a => int_constant (- a) | None => None end.

(** [boost::mpl::front] and [boost::mpl::back] on sequences *)
Definition seq_front (v : value) : option value :=
  match v with VSeq (x :: _) => Some x | _ => None end.
Definition seq_back (v : value) : option value :=
  match v with VSeq (x :: l) => Some (last l x) | _ => None end.

(** ** The tokens, calculator/main.cpp:69-74,
    calculator_with_parens/main.cpp:73-81,
    calculator_with_parens_and_unary_ops/main.cpp:79-87 *)
Definition plus_token : pexpr := PToken (PLitC 43).
Definition minus_token : pexpr := PToken (PLitC 45).
Definition mult_token : pexpr := PToken (PLitC 42).
Definition div_token : pexpr := PToken (PLitC 47).
Definition open_paren_token : pexpr := PToken (PLitC 40).
Definition close_paren_token : pexpr := PToken (PLitC 41).
Definition int_token : pexpr := PToken PInt.

(** [is_c<front<C>, c>], calculator/main.cpp:76-77 *)
Definition front_is_c (c : char) (v : value) : option bool :=
  match seq_front v with
  | Some x => match as_int x with Some k => Some (k =? c) | None => None end
  | None => None
  end.

(** [eval_if<is_c<front<C>, c>, t<State::type, back<C>::type>, f<...>>] *)
Definition eval_by_front (c : char) (t f : mf2) : mf2 := fun state v =>
  match front_is_c c v, seq_back v with
  | Some b, Some x => if b then t state x else f state x
  | _, _ => None
  end.

(** [eval_plus], calculator/main.cpp:79-89 (the same in the other two) *)
Definition eval_plus : mf2 := eval_by_front 43 mpl_plus mpl_minus.
(** [eval_mult], calculator/main.cpp:91-101 (the same in the other two) *)
Definition eval_mult : mf2 := eval_by_front 42 mpl_times mpl_divides.
(** [eval_unary_plus], calculator_with_parens_and_unary_ops/main.cpp:116-126 *)
Definition eval_unary_plus : mf2 := fun state v =>
  match as_int v with
  | Some c => if c =? 43 then Some state else mpl_negate state
  | None => None
  end.

(** ** calculator/main.cpp *)

(** [prod_exp], calculator/main.cpp:103-109 *)
Definition calc1_prod_exp : pexpr :=
  PFoldlRejectIncompleteStartWithParser
    (PSequence [POneOf [mult_token; div_token]; int_token]) int_token eval_mult.
(** [plus_exp], calculator/main.cpp:111-117 *)
Definition calc1_plus_exp : pexpr :=
  PFoldlRejectIncompleteStartWithParser
    (PSequence [POneOf [plus_token; minus_token]; calc1_prod_exp]) calc1_prod_exp eval_plus.
(** [expression], calculator/main.cpp:119 *)
Definition calc1_expression : pexpr := PLastOf [PRepeated PSpace; calc1_plus_exp].
(** [calculator_parser], calculator/main.cpp:121, without [build_parser] *)
Definition calculator : pexpr := PEntireInput calc1_expression end_of_input_expected.

(** The parsers without forward declarations do not use the program. *)
Definition no_program : program := fun _ => PFail none_of_the_expected_cases_found.

(** ** calculator_with_parens/main.cpp *)

(** [plus_exp] (forward declaration, 110) is the named parser 0; [paren_exp], 112 *)
Definition paren_exp : pexpr := PMiddleOf open_paren_token (PRef 0) close_paren_token.
(** [simple_exp], 114 *)
Definition calc2_simple_exp : pexpr := POneOf [int_token; paren_exp].
(** [prod_exp], 116-122 *)
Definition calc2_prod_exp : pexpr :=
  PFoldlRejectIncompleteStartWithParser
    (PSequence [POneOf [mult_token; div_token]; calc2_simple_exp]) calc2_simple_exp eval_mult.
(** [plus_exp], 124-130 *)
Definition calc2_plus_exp : pexpr :=
  PFoldlRejectIncompleteStartWithParser
    (PSequence [POneOf [plus_token; minus_token]; calc2_prod_exp]) calc2_prod_exp eval_plus.
Definition calc2_program : program := fun _ => calc2_plus_exp.
(** [expression], 132 *)
Definition calc2_expression : pexpr := PLastOf [PRepeated PSpace; PRef 0].
(** [calculator_parser], 134, without [build_parser] *)
Definition calculator_with_parens : pexpr := PEntireInput calc2_expression end_of_input_expected.

(** ** calculator_with_parens_and_unary_ops/main.cpp *)

(** [simple_exp], 132-138; [paren_exp], 130, is as above *)
Definition calc3_simple_exp : pexpr :=
  PFoldrStartWithParser (POneOf [plus_token; minus_token]) (POneOf [int_token; paren_exp])
    eval_unary_plus.
(** [prod_exp], 140-146 *)
Definition calc3_prod_exp : pexpr :=
  PFoldlRejectIncompleteStartWithParser
    (PSequence [POneOf [mult_token; div_token]; calc3_simple_exp]) calc3_simple_exp eval_mult.
(** [plus_exp], 148-154 *)
Definition calc3_plus_exp : pexpr :=
  PFoldlRejectIncompleteStartWithParser
    (PSequence [POneOf [plus_token; minus_token]; calc3_prod_exp]) calc3_prod_exp eval_plus.
Definition calc3_program : program := fun _ => calc3_plus_exp.
(** [expression], 156 *)
Definition calc3_expression : pexpr := PLastOf [PRepeated PSpace; PRef 0].
(** [calculator_parser], 158, without [build_parser] *)
Definition calculator_with_unary_ops : pexpr := PEntireInput calc3_expression end_of_input_expected.

(** ** The tutorial *)

(** Sections 3 and 4: 3_1.hpp, 3_3.hpp, 4.hpp, 4_1.hpp (and 4_2.hpp).  The
    [exp_parser]s are given without [build_parser]. *)
Definition exp_parser1 : pexpr := PInt.
Definition exp_parser2 : pexpr := PEntireInput PInt end_of_input_expected.
Definition exp_parser3 : pexpr := PEntireInput (PToken PInt) end_of_input_expected.
Definition exp_parser5 : pexpr := PSequence [int_token; plus_token; int_token].

(** [eval_plus] of the tutorial, 5.hpp *)
Definition tut_eval_plus : mf1 := fun v =>
  match at_c v 0, at_c v 2 with
  | Some a, Some b => mpl_plus a b
  | _, _ => None
  end.
(** 5.hpp *)
Definition exp_parser6 : pexpr := PTransform exp_parser5 tut_eval_plus.

(** 5_2.hpp *)
Definition exp_parser7 : pexpr := PSequence [int_token; PRepeated (PSequence [plus_token; int_token])].

(** [boost::mpl::fold] (not part of /repo) *)
Fixpoint mpl_fold (f : mf2) (l : list value) (state : value) : option value :=
  match l with
  | [] => Some state
  | x :: l' => match f state x with Some s' => mpl_fold f l' s' | None => None end
  end.
(** [sum_vector] and [sum_items], 5_2_2.hpp *)
Definition sum_vector : mf1 := fun v =>
  match v with VSeq l => mpl_fold mpl_plus l (VInt 0) | _ => None end.
Definition sum_items : mf2 := fun sum item =>
  match at_c item 1 with Some x => mpl_plus sum x | None => None end.

(** 5_2_3.hpp *)
Definition exp_parser8 : pexpr :=
  PSequence [int_token;
    PTransform (PRepeated (PSequence [plus_token; int_token]))
      (fun v => match v with VSeq l => mpl_fold sum_items l (VInt 0) | _ => None end)].
Definition exp_parser9 : pexpr := PTransform exp_parser8 sum_vector.
(** 5_2_4.hpp *)
Definition exp_parser10 : pexpr :=
  PTransform
    (PSequence [int_token; PFoldl (PSequence [plus_token; int_token]) (Some (VInt 0)) sum_items])
    sum_vector.
(** 6.hpp *)
Definition exp_parser11 : pexpr :=
  PFoldlStartWithParser (PSequence [plus_token; int_token]) int_token sum_items.
(** 6_2.hpp *)
Definition exp_parser12 : pexpr :=
  PFoldlStartWithParser (PSequence [POneOf [plus_token; minus_token]; int_token]) int_token sum_items.

(** [eval_binary_op<L, Op, R>], 7.hpp, 7_2.hpp, 8_1.hpp: only declared for other
    operators *)
Definition eval_binary_op (l : value) (op : char) (r : value) : option value :=
  if op =? 43 then mpl_plus l r
  else if op =? 45 then mpl_minus l r
  else if op =? 42 then mpl_times l r
  else if op =? 47 then mpl_divides l r
  else None.
(** [binary_op], 7.hpp *)
Definition binary_op : mf2 := fun s item =>
  match at_c item 0, at_c item 1 with
  | Some op, Some r => match as_int op with Some c => eval_binary_op s c r | None => None end
  | _, _ => None
  end.
(** [reverse_binary_op], 9.hpp *)
Definition reverse_binary_op : mf2 := fun s item =>
  match at_c item 0, at_c item 1 with
  | Some l, Some op => match as_int op with Some c => eval_binary_op l c s | None => None end
  | _, _ => None
  end.
(** [boost::mpl::lambda<boost::mpl::negate<boost::mpl::_1>>::type], 10.hpp *)
Definition negate_first : mf2 := fun s _ => mpl_negate s.

(** 7.hpp *)
Definition exp_parser13 : pexpr :=
  PFoldlStartWithParser (PSequence [POneOf [plus_token; minus_token]; int_token]) int_token binary_op.
(** 7_2.hpp *)
Definition exp_parser14 : pexpr :=
  PFoldlStartWithParser (PSequence [POneOf [plus_token; minus_token; mult_token]; int_token])
    int_token binary_op.
(** 8.hpp *)
Definition mult_exp1 : pexpr :=
  PFoldlStartWithParser (PSequence [mult_token; int_token]) int_token binary_op.
(** the additions around a parser of products; 8.hpp, 8_1.hpp, 9.hpp, 10.hpp *)
Definition plus_exp_of (mult_exp : pexpr) : pexpr :=
  PFoldlStartWithParser (PSequence [POneOf [plus_token; minus_token]; mult_exp]) mult_exp binary_op.
Definition exp_parser15 : pexpr := plus_exp_of mult_exp1.
(** 8_1.hpp *)
Definition mult_exp2 : pexpr :=
  PFoldlStartWithParser (PSequence [POneOf [mult_token; div_token]; int_token]) int_token binary_op.
Definition exp_parser16 : pexpr := plus_exp_of mult_exp2.
(** 9.hpp *)
Definition mult_exp3 : pexpr :=
  PFoldrStartWithParser (PSequence [int_token; POneOf [mult_token; div_token]]) int_token
    reverse_binary_op.
Definition exp_parser17 : pexpr := plus_exp_of mult_exp3.
(** 10.hpp *)
Definition unary_exp1 : pexpr := PFoldrStartWithParser minus_token int_token negate_first.
Definition mult_exp4 : pexpr :=
  PFoldlStartWithParser (PSequence [POneOf [mult_token; div_token]; unary_exp1]) unary_exp1 binary_op.
Definition exp_parser18 : pexpr := plus_exp_of mult_exp4.

(** 11.hpp.  [primary_exp2] mentions [paren_exp2] (brackets around [plus_exp1]),
    not [paren_exp3] (brackets around [plus_exp2]). *)
Definition plus_exp1 : pexpr := plus_exp_of mult_exp4.
Definition paren_exp2 : pexpr := PMiddleOf open_paren_token plus_exp1 close_paren_token.
Definition primary_exp2 : pexpr := POneOf [int_token; paren_exp2].
Definition unary_exp2 : pexpr := PFoldrStartWithParser minus_token primary_exp2 negate_first.
Definition mult_exp5 : pexpr :=
  PFoldlStartWithParser (PSequence [POneOf [mult_token; div_token]; unary_exp2]) unary_exp2 binary_op.
Definition plus_exp2 : pexpr := plus_exp_of mult_exp5.
Definition exp_parser19 : pexpr := plus_exp2.

(** [missing_primary_expression], 11_3.hpp, is one of the user's messages. *)
Definition missing_primary_expression : msg := UserMsg 0.

(** 11_3.hpp; [plus_exp3] is the named parser 0 *)
Definition primary_exp3 : pexpr := POneOf [int_token; paren_exp; PFail missing_primary_expression].
Definition unary_exp3 : pexpr := PFoldrStartWithParser minus_token primary_exp3 negate_first.
Definition mult_exp6 : pexpr :=
  PFoldlStartWithParser (PSequence [POneOf [mult_token; div_token]; unary_exp3]) unary_exp3 binary_op.
Definition plus_exp3 : pexpr := plus_exp_of mult_exp6.
Definition tut20_program : program := fun _ => plus_exp3.
Definition exp_parser20 : pexpr := PRef 0.

(** 11_3_1.hpp: the brackets of [mult_exp6] are around [plus_exp3] *)
Definition plus_exp4 : pexpr :=
  PFirstOf [plus_exp_of mult_exp6;
            PFailAtFirstCharExpected (PSequence [POneOf [plus_token; minus_token]; mult_exp6])].
Definition exp_parser21 : pexpr := plus_exp4.
(** 11_3_2.hpp *)
Definition plus_exp5 : pexpr :=
  PFoldlRejectIncompleteStartWithParser
    (PSequence [POneOf [plus_token; minus_token]; mult_exp6]) mult_exp6 binary_op.
Definition exp_parser22 : pexpr := plus_exp5.

(** 12.hpp; [plus_exp6] is the named parser 0; [primary_exp4] and [unary_exp4]
    differ from [primary_exp3] and [unary_exp3] in what the brackets are around *)
Definition mult_exp7 : pexpr :=
  PFoldlRejectIncompleteStartWithParser
    (PSequence [POneOf [mult_token; div_token]; unary_exp3]) unary_exp3 binary_op.
Definition plus_exp6 : pexpr :=
  PFoldlRejectIncompleteStartWithParser
    (PSequence [POneOf [plus_token; minus_token]; mult_exp7]) mult_exp7 binary_op.
Definition tut23_program : program := fun _ => plus_exp6.
Definition exp_parser23 : pexpr := PRef 0.
