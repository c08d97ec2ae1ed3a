(** The language of grammar rules (doc/grammar.qbk): tokens, how they are
    spelled, which token lists are rules, and the meaning of the rules as
    parsing expressions.  Up to the last section only the types of Base.v are
    used. *)

From Coq Require Import ZArith List Bool.
From Verif Require Import Base Spec Deep Grammar.
Import ListNotations.
Open Scope Z_scope.

(** ** Tokens *)

Inductive tok : Type :=
| TChar (c : char)   (* a character literal *)
| TName (s : str)
| TStar | TPlus | TBar | TOpen | TClose
| TDef.              (* ::= *)

Definition name_char (c : char) : Prop := letter_char c \/ digit_char c \/ c = 95.

(** What stands between the apostrophes for the character [c]. *)
Inductive char_body : char -> str -> Prop :=
| cb_raw : forall c, c <> 39 -> c <> 92 -> char_body c [c]
| cb_newline : char_body 10 [92; 110]
| cb_return : char_body 13 [92; 114]
| cb_tab : char_body 9 [92; 116]
| cb_backslash : char_body 92 [92; 92]
| cb_apostrophe : char_body 39 [92; 39].

Inductive lexeme : tok -> str -> Prop :=
| lx_char : forall c b, char_body c b -> lexeme (TChar c) (39 :: b ++ [39])
| lx_name : forall s, s <> [] -> Forall name_char s -> lexeme (TName s) s
| lx_star : lexeme TStar [42]
| lx_plus : lexeme TPlus [43]
| lx_bar : lexeme TBar [124]
| lx_open : lexeme TOpen [40]
| lx_close : lexeme TClose [41]
| lx_def : lexeme TDef [58; 58; 61].

(** The tokens, each followed by any amount of whitespace.  A name ends where
    no name character follows. *)
Definition is_name (k : tok) : Prop := exists s, k = TName s.

Inductive spells : list tok -> str -> Prop :=
| sp_nil : spells [] []
| sp_cons : forall k l w ts t,
    lexeme k l -> Forall space_char w -> spells ts t ->
    (is_name k -> w = [] -> not_starting_with name_char t) ->
    spells (k :: ts) (l ++ w ++ t).

(** ** Expressions *)

Inductive atom : gexpr -> list tok -> Prop :=
| at_char : forall c, atom (GChar c) [TChar c]
| at_name : forall s, atom (GName s) [TName s]
| at_brackets : forall e ts, choice e ts -> atom e (TOpen :: ts ++ [TClose])
(** postfix * and + *)
with repetition : gexpr -> list tok -> Prop :=
| re_atom : forall e ts, atom e ts -> repetition e ts
| re_star : forall e ts, repetition e ts -> repetition (GStar e) (ts ++ [TStar])
| re_plus : forall e ts, repetition e ts -> repetition (GPlus e) (ts ++ [TPlus])
(** juxtaposition, to the left *)
with concatenation : gexpr -> list tok -> Prop :=
| co_one : forall e ts, repetition e ts -> concatenation e ts
| co_more : forall a b ts us, concatenation a ts -> repetition b us ->
    concatenation (GSeq a b) (ts ++ us)
(** |, to the left *)
with choice : gexpr -> list tok -> Prop :=
| ch_one : forall e ts, concatenation e ts -> choice e ts
| ch_more : forall a b ts us, choice a ts -> concatenation b us ->
    choice (GSel a b) (ts ++ TBar :: us).

(** [s] is the text of a rule defining [name] as [e]. *)
Definition rule_text (name : str) (e : gexpr) (s : str) : Prop :=
  exists ts, choice e ts /\ spells (TName name :: TDef :: ts) s.

(** ** Printing *)

Definition in_brackets (b : bool) (ts : list tok) : list tok :=
  if b then TOpen :: ts ++ [TClose] else ts.

(** The tokens of an expression, with brackets only where they are needed;
    level 0 is [choice], 1 [concatenation], 2 [repetition]. *)
Fixpoint show (level : nat) (e : gexpr) : list tok :=
  match e with
  | GChar c => [TChar c]
  | GName s => [TName s]
  | GStar a => show 2 a ++ [TStar]
  | GPlus a => show 2 a ++ [TPlus]
  | GSeq a b => in_brackets (Nat.ltb 1 level) (show 1 a ++ show 2 b)
  | GSel a b => in_brackets (Nat.ltb 0 level) (show 0 a ++ TBar :: show 1 b)
  end.

Definition char_text (c : char) : str :=
  if c =? 39 then [92; 39] else if c =? 92 then [92; 92]
  else if c =? 10 then [92; 110] else [c].

Definition tok_text (k : tok) : str :=
  match k with
  | TChar c => 39 :: char_text c ++ [39]
  | TName s => s
  | TStar => [42] | TPlus => [43] | TBar => [124] | TOpen => [40] | TClose => [41]
  | TDef => [58; 58; 61]
  end.

(** One space after every token. *)
Definition print_rule (name : str) (e : gexpr) : str :=
  flat_map (fun k => tok_text k ++ [32]) (TName name :: TDef :: show 0 e).

(** The names of an expression can be written. *)
Definition writable (s : str) : Prop := s <> [] /\ Forall name_char s.
Fixpoint names_writable (e : gexpr) : Prop :=
  match e with
  | GChar _ => True
  | GName s => writable s
  | GStar a | GPlus a => names_writable a
  | GSeq a b | GSel a b => names_writable a /\ names_writable b
  end.

(** The C++98 limits leave room for the rule parser. *)
Definition grammar_fits (cfg : config) : Prop :=
  fits_one_of cfg 5 /\ fits_sequence cfg 3 /\ fits_one_char_except cfg 1.

(** ** The meaning of expressions: parsing expressions *)

(** What a parsing expression does at a place of a text. *)
Inductive verdict_at : Type :=
| Match (v : value) (rem : str) (ps : pos)
| NoMatch.

(** What a name stands for: an expression, or something from outside that is
    known by what it does. *)
Inductive meaning : Type :=
| MRule (e : gexpr)
| MImport (r : str -> pos -> verdict_at -> Prop).

(** An action changes the result of the rule. *)
Inductive acted (act : option mf1) : verdict_at -> verdict_at -> Prop :=
| ac_no_match : acted act NoMatch NoMatch
| ac_none : forall v rem ps, act = None -> acted act (Match v rem ps) (Match v rem ps)
| ac_some : forall f v w rem ps, act = Some f -> f v = Some w ->
    acted act (Match v rem ps) (Match w rem ps).

Section Peg.

Variable defs : str -> option meaning.
Variable acts : str -> option mf1.

Inductive peg : gexpr -> str -> pos -> verdict_at -> Prop :=
| pg_char : forall c s ps ps', walk ps [c] ps' -> peg (GChar c) (c :: s) ps (Match (VChar c) s ps')
| pg_char_no : forall c s ps, not_starting_with (fun d => d = c) s -> peg (GChar c) s ps NoMatch
| pg_seq : forall a b s ps v1 s1 ps1 v2 s2 ps2,
    peg a s ps (Match v1 s1 ps1) -> peg b s1 ps1 (Match v2 s2 ps2) ->
    peg (GSeq a b) s ps (Match (VSeq [v1; v2]) s2 ps2)
| pg_seq_no1 : forall a b s ps, peg a s ps NoMatch -> peg (GSeq a b) s ps NoMatch
| pg_seq_no2 : forall a b s ps v1 s1 ps1,
    peg a s ps (Match v1 s1 ps1) -> peg b s1 ps1 NoMatch -> peg (GSeq a b) s ps NoMatch
| pg_sel_first : forall a b s ps v s1 ps1,
    peg a s ps (Match v s1 ps1) -> peg (GSel a b) s ps (Match v s1 ps1)
| pg_sel_second : forall a b s ps r,
    peg a s ps NoMatch -> peg b s ps r -> peg (GSel a b) s ps r
| pg_star : forall a s ps vs rem ps',
    peg_many a s ps vs rem ps' -> peg (GStar a) s ps (Match (VSeq vs) rem ps')
| pg_plus : forall a s ps v vs rem ps',
    peg_many a s ps (v :: vs) rem ps' -> peg (GPlus a) s ps (Match (VSeq (v :: vs)) rem ps')
| pg_plus_no : forall a s ps, peg a s ps NoMatch -> peg (GPlus a) s ps NoMatch
| pg_rule : forall x e s ps r r', defs x = Some (MRule e) -> peg e s ps r ->
    acted (acts x) r r' -> peg (GName x) s ps r'
| pg_import : forall x b s ps (r r' : verdict_at), defs x = Some (MImport b) -> b s ps r ->
    acted (acts x) r r' -> peg (GName x) s ps r'
(** as often as possible *)
with peg_many : gexpr -> str -> pos -> list value -> str -> pos -> Prop :=
| pm_stop : forall a s ps, peg a s ps NoMatch -> peg_many a s ps [] s ps
| pm_more : forall a s ps v s1 ps1 vs s2 ps2,
    peg a s ps (Match v s1 ps1) -> peg_many a s1 ps1 vs s2 ps2 ->
    peg_many a s ps (v :: vs) s2 ps2.

(** ** References between rules *)

Fixpoint mentions (e : gexpr) (x : str) : Prop :=
  match e with
  | GChar _ => False
  | GName y => x = y
  | GStar a | GPlus a => mentions a x
  | GSeq a b | GSel a b => mentions a x \/ mentions b x
  end.

(** The rule of [x] mentions [y]. *)
Definition refers (x y : str) : Prop := exists e, defs x = Some (MRule e) /\ mentions e y.

(** [y] is reached from [x] through any number of rules. *)
Inductive reaches_name : str -> str -> Prop :=
| rn_here : forall x, reaches_name x x
| rn_step : forall x y z, refers x y -> reaches_name y z -> reaches_name x z.

(** The rule of [x] refers to itself, directly or through other rules. *)
Definition recursive (x : str) : Prop := exists y, refers x y /\ reaches_name y x.

(** All names reached from [x] satisfy [P]. *)
Definition all_reached (x : str) (P : str -> Prop) : Prop := forall y, reaches_name x y -> P y.

(** ** Loops that read something *)

(** The expression may match without reading; [quiet] are the imports that
    may. *)
Variable quiet : str -> Prop.

Inductive may_be_empty : gexpr -> Prop :=
| me_star : forall a, may_be_empty (GStar a)
| me_plus : forall a, may_be_empty a -> may_be_empty (GPlus a)
| me_seq : forall a b, may_be_empty a -> may_be_empty b -> may_be_empty (GSeq a b)
| me_sel1 : forall a b, may_be_empty a -> may_be_empty (GSel a b)
| me_sel2 : forall a b, may_be_empty b -> may_be_empty (GSel a b)
| me_rule : forall x e, defs x = Some (MRule e) -> may_be_empty e -> may_be_empty (GName x)
| me_import : forall x b, defs x = Some (MImport b) -> quiet x -> may_be_empty (GName x).

Fixpoint loops_ok (e : gexpr) : Prop :=
  match e with
  | GChar _ | GName _ => True
  | GStar a | GPlus a => ~ may_be_empty a /\ loops_ok a
  | GSeq a b | GSel a b => loops_ok a /\ loops_ok b
  end.

End Peg.

(** ** The definitions of a grammar *)

(** What an imported parser does, at some depth. *)
Definition behaves (cfg : config) (env : program) (p : pexpr)
  (s : str) (ps : pos) (r : verdict_at) : Prop :=
  exists n,
  match r with
  | Match v rem ps' => eval cfg env n p s ps = Accept v rem ps'
  | NoMatch => exists m pe, eval cfg env n p s ps = Reject m pe
  end.

Definition defs_of (cfg : config) (env : program) (g : grammar) (x : str) : option meaning :=
  match lookup x (g_rules g) with
  | None => None
  | Some (Parsed e) => Some (MRule e)
  | Some (Native p) => Some (MImport (behaves cfg env p))
  end.

Definition acts_of (g : grammar) (x : str) : option mf1 := lookup x (g_actions g).

(** The name a grammar starts with: the leading name of its start string. *)
Definition start_name (g : grammar) (x : str) : Prop :=
  exists rest, g_start g = x ++ rest /\ writable x /\ not_starting_with name_char rest.
