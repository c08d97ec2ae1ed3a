(** Preparing the build environment: tools/build_environment.py.

    Running a program is an argument: what it does to the rest of the world, and what
    it prints when it succeeds.  Simplifications: the programs run leave the file of the
    dependencies alone, opening and writing it succeeds when it can be read, the text
    that is printed and argparse (except for the actions it lets through and the
    defaults) are left out.  Strings have characters below 128. *)

From Coq Require Import String.
From Coq Require Import ZArith List Bool.
From Verif Require Import Base Util Messages Generate BenchmarkRun.
Import ListNotations.
Open Scope Z_scope.

(** ** json of Python 2.7, as far as it is needed: objects whose values are strings *)

Definition hex_digit (n : Z) : char := if n <? 10 then 48 + n else 87 + n.
(** [py_encode_basestring_ascii], the characters of a string *)
Definition escape_char (c : char) : str :=
  if c =? 34 then [92; 34]
  else if c =? 92 then [92; 92]
  else if c =? 10 then [92; 110]
  else if c =? 13 then [92; 114]
  else if c =? 9 then [92; 116]
  else if c =? 12 then [92; 102]
  else if c =? 8 then [92; 98]
  else if (32 <=? c) && (c <=? 126) then [c]
  else [92; 117; 48; 48; hex_digit (c / 16); hex_digit (c mod 16)].
Definition json_quote (s : str) : str := [34] ++ concat (map escape_char s) ++ [34].

(** [sorted(items)] by the keys *)
Fixpoint sort_in (x : str * str) (l : list (str * str)) : list (str * str) :=
  match l with
  | [] => [x]
  | y :: l' => if list_less (fst y) (fst x) then y :: sort_in x l' else x :: l
  end.
Definition sort_items (l : list (str * str)) : list (str * str) := fold_right sort_in [] l.

(** [json.dumps(d, sort_keys=True, indent=2)]: the separators are [", "] and [": "] in
    Python 2, also with [indent] *)
Definition dump_item (x : str * str) : str := json_quote (fst x) ++ literal ": " ++ json_quote (snd x).
Fixpoint dump_items (l : list (str * str)) : str :=
  match l with
  | [] => []
  | [x] => dump_item x
  | x :: l' => dump_item x ++ literal ", " ++ [10; 32; 32] ++ dump_items l'
  end.
Definition dumps (d : dict str) : str :=
  match sort_items d with
  | [] => literal "{}"
  | l => literal "{" ++ [10; 32; 32] ++ dump_items l ++ [10] ++ literal "}"
  end.

(** [json.load]; [None]: an exception, or (simplification) a document that is not an
    object of strings *)
Fixpoint json_space (s : str) : str :=
  match s with
  | [] => []
  | c :: s' => if is_whitespace_c c then json_space s' else s
  end.
Definition hex_value (c : char) : option Z :=
  if (48 <=? c) && (c <=? 57) then Some (c - 48)
  else if (97 <=? c) && (c <=? 102) then Some (c - 87)
  else if (65 <=? c) && (c <=? 70) then Some (c - 55)
  else None.
Definition hex4 (a b c d : char) : option char :=
  match hex_value a, hex_value b, hex_value c, hex_value d with
  | Some a, Some b, Some c, Some d =>
      let n := ((a * 16 + b) * 16 + c) * 16 + d in if n <? 128 then Some n else None
  | _, _, _, _ => None
  end.
Definition unescape (c : char) : option char :=
  if (c =? 34) || (c =? 92) || (c =? 47) then Some c
  else if c =? 98 then Some 8
  else if c =? 102 then Some 12
  else if c =? 110 then Some 10
  else if c =? 114 then Some 13
  else if c =? 116 then Some 9
  else None.
(** a string after its opening quote, and what follows *)
Fixpoint json_string (s : str) : option (str * str) :=
  let more (c : char) (r : option (str * str)) :=
    match r with Some (t, rest) => Some (c :: t, rest) | None => None end in
  match s with
  | [] => None
  | c :: r =>
      if c =? 34 then Some ([], r)
      else if c =? 92 then
        match r with
        | [] => None
        | e :: r' =>
            if e =? 117 then
              match r' with
              | w :: x :: y :: z :: r'' =>
                  match hex4 w x y z with Some n => more n (json_string r'') | None => None end
              | _ => None
              end
            else match unescape e with Some n => more n (json_string r') | None => None end
        end
      else if c <? 32 then None
      else more c (json_string r)
  end.
Definition json_quoted (s : str) : option (str * str) :=
  match s with c :: r => if c =? 34 then json_string r else None | [] => None end.
Fixpoint json_items (n : nat) (s : str) : option (list (str * str) * str) :=
  match n with
  | O => None
  | S n' =>
      match json_quoted s with
      | None => None
      | Some (k, r) =>
          match json_space r with
          | c :: r1 =>
              if c =? 58 then
                match json_quoted (json_space r1) with
                | None => None
                | Some (v, r2) =>
                    match json_space r2 with
                    | e :: r3 =>
                        if e =? 125 then Some ([(k, v)], r3)
                        else if e =? 44 then
                          match json_items n' (json_space r3) with
                          | Some (l, r4) => Some ((k, v) :: l, r4)
                          | None => None
                          end
                        else None
                    | [] => None
                    end
                end
              else None
          | [] => None
          end
      end
  end.
(** the later one of two items with the same key counts *)
Definition dict_of (l : list (str * str)) : dict str :=
  fold_left (fun d x => dict_set (fst x) (snd x) d) l [].
Definition loads (s : str) : option (dict str) :=
  match json_space s with
  | c :: r =>
      if c =? 123 then
        match json_space r with
        | e :: r1 =>
            if e =? 125 then match json_space r1 with [] => Some [] | _ => None end
            else match json_items (length s) (e :: r1) with
                 | Some (l, r2) => match json_space r2 with [] => Some (dict_of l) | _ => None end
                 | None => None
                 end
        | [] => None
        end
      else None
  | [] => None
  end.

(** ** The script *)

(** [os.path.join(a, b)] *)
Definition path_join (a b : str) : str :=
  match b with
  | c :: _ =>
      if c =? 47 then b
      else match rev a with
           | [] => b
           | d :: _ => if d =? 47 then a ++ b else a ++ [47] ++ b
           end
  | [] =>
      match rev a with
      | [] => []
      | d :: _ => if d =? 47 then a else a ++ [47]
      end
  end.

(** [s.split()[0]]; [None]: IndexError *)
Fixpoint word (s : str) : str :=
  match s with
  | [] => []
  | c :: s' => if py_space c then [] else c :: word s'
  end.
Definition first_word (s : str) : option str :=
  match lstrip s with [] => None | r => Some (word r) end.

(** A program that was run: its directory, its arguments and what it printed ([None]:
    it failed, or could not be started) *)
Record call := mkcall { call_dir : str; call_args : list str; call_out : option str }.

(** the program and the directory, build_environment.py:19-22 *)
Record process := mkprocess { cmd : list str; cwd : str }.

Section Environment.
Variable W : Type.
(** what running a program with its arguments in a directory does *)
Variable popen : list str -> str -> W -> W * option str.
(** the order in which Python goes through a dictionary *)
Variable order : dict str -> dict str.

Record state := mkstate { world : W; file : str -> option str; calls : list call }.
Inductive result (A : Type) : Type :=
| Returned (a : A) (s : state)
| Raised (s : state).
Arguments Returned {A}.
Arguments Raised {A}.
Definition action_of (A : Type) := state -> result A.
Definition bind {A B : Type} (m : action_of A) (f : A -> action_of B) : action_of B := fun s =>
  match m s with
  | Returned a s' => f a s'
  | Raised s' => Raised s'
  end.
Definition return_ {A : Type} (a : A) : action_of A := fun s => Returned a s.
Definition raise {A : Type} : action_of A := fun s => Raised s.

(** [ChildProcess.run], :24-41 *)
Definition run (p : process) (c : list str) : action_of str := fun s =>
  let (w, out) := popen (cmd p ++ c) (cwd p) (world s) in
  let s' := mkstate w (file s) (calls s ++ [mkcall (cwd p) (cmd p ++ c) out]) in
  match out with Some o => Returned o s' | None => Raised s' end.
(** [ChildProcess.in_dir], [in_subdir], :43-47 *)
Definition in_dir (p : process) (d : str) : process := mkprocess (cmd p) d.
Definition in_subdir (p : process) (d : str) : process := in_dir p (path_join (cwd p) d).

(** [load_json], :14-16 *)
Definition load_json (f : str) : action_of (dict str) := fun s =>
  match file s f with
  | Some t => match loads t with Some d => Returned d s | None => Raised s end
  | None => Raised s
  end.
(** [open(f, 'w')], and writing the text *)
Definition write (f t : str) : action_of unit := fun s =>
  Returned tt (mkstate (world s) (fun g => if str_eqb g f then Some t else file s g) (calls s)).

(** [head_of_master], :50-52 *)
Definition head_of_master (p : process) (ref : str) : action_of str :=
  bind (run p [literal "fetch"]) (fun _ =>
  bind (run p [literal "show-ref"; ref]) (fun out =>
  match first_word out with Some v => return_ v | None => raise end)).

Fixpoint heads (p : process) (ref : str) (l : list (str * str)) : action_of (list (str * str)) :=
  match l with
  | [] => return_ []
  | (k, _) :: l' =>
      bind (head_of_master (in_subdir p k) ref) (fun h =>
      bind (heads p ref l') (fun r => return_ ((k, h) :: r)))
  end.
Fixpoint checkouts (p : process) (l : list (str * str)) : action_of unit :=
  match l with
  | [] => return_ tt
  | (k, v) :: l' => bind (run (in_subdir p k) [literal "checkout"; v]) (fun _ => checkouts p l')
  end.

(** [build_environment], :55-79.  The file is opened, and thereby emptied, before the
    heads are asked for. *)
Definition build_environment (submodules_file out_dir : str) (git : process) (repo action ref : str)
  : action_of unit :=
  bind (load_json submodules_file) (fun submodules =>
  bind (run git [literal "clone"; repo; out_dir]) (fun _ =>
  let git_in_boost := in_dir git out_dir in
  bind (run git_in_boost ([literal "submodule"; literal "init"; literal "--"]
    ++ filter (fun k => negb (str_eqb k [])) (map fst (order submodules)))) (fun _ =>
  bind (run git_in_boost [literal "submodule"; literal "update"]) (fun _ =>
  if str_eqb action (literal "update") then
    bind (write submodules_file []) (fun _ =>
    bind (heads git_in_boost ref (order submodules)) (fun l =>
    write submodules_file (dumps l)))
  else if str_eqb action (literal "checkout") then checkouts git_in_boost (order submodules)
  else raise)))).

(** [main], :82-130; [None]: the option is not given *)
Record arguments := mkargs {
  dep_json : str; a_git : option str; a_out : option str; a_action : str;
  boost_repository : option str; a_ref : option str }.
Definition default (d : str) (o : option str) : str := match o with Some x => x | None => d end.
Definition main (here : str) (a : arguments) : action_of unit :=
  if str_eqb (a_action a) (literal "update") || str_eqb (a_action a) (literal "checkout") then
    build_environment (dep_json a) (default (literal "boost") (a_out a))
      (mkprocess [default (literal "git") (a_git a)] here)
      (default (literal "https://github.com/boostorg/boost.git") (boost_repository a))
      (a_action a) (default (literal "origin/master") (a_ref a))
  else raise.
End Environment.
Arguments Returned {W A}.
Arguments Raised {W A}.

(** tools/deps.json:1-60 *)
Definition shipped_deps : str := literal
"{
  """": ""0438955e7ac39cbb270bb803b3199353c50bf837"", 
  ""libs/algorithm"": ""ea13506795980290842d43d6e8b34c75cf7f362a"", 
  ""libs/align"": ""1f829685e08d4c6b8c96e08b043bf8e03d27ae49"", 
  ""libs/any"": ""3b7c34998d7364aa312a46f6578622ae79d0378f"", 
  ""libs/array"": ""9678f6aa3bee620a91d536cdba92bf0d4b7e02fc"", 
  ""libs/assert"": ""066d8933c4061fb865210de71b4df16839bc1c8d"", 
  ""libs/bind"": ""4300db5db83be5804785b4bf581f9abbcb193caf"", 
  ""libs/chrono"": ""621b6faaf19d5c0b5ffd0a313e696b81495316a4"", 
  ""libs/concept_check"": ""504ea0b18d02e32c223ec8cbaa036806e3ffe6e3"", 
  ""libs/config"": ""74bcf32eca2a81fb8cccb06b81addae3815581fe"", 
  ""libs/container"": ""08e768f1d89289f0783b5bab9ea9f2eb0753ed70"", 
  ""libs/conversion"": ""da8b2fe695cffda506059b49a4782ede01fba10f"", 
  ""libs/core"": ""3add966877646d0c6f43e0ec37587f52d2a757d9"", 
  ""libs/detail"": ""b0a2809915964f504adfad818794fc418a2e39e9"", 
  ""libs/exception"": ""e5e4652b75792d18e595aa2aba1ee1c5c7c69611"", 
  ""libs/filesystem"": ""26540a5338240ca0fae31dba432ff654c0ca93c4"", 
  ""libs/foreach"": ""a19bc0a6dd02249ded12d90cd38f28c8294bd64d"", 
  ""libs/function"": ""42f2a7c714a2c1254b0eb77c9fea870a47f32e80"", 
  ""libs/functional"": ""df98d4fd1ca9d8842da2653fb235ee3dcb2d5e73"", 
  ""libs/fusion"": ""53ba3de15aef744e72d86e91269e2cd90cff8140"", 
  ""libs/integer"": ""14020f6f6c99891aac407618f0c19d383524f02d"", 
  ""libs/io"": ""5458fd86d5a8e667513d34ea50b18883eae5ea14"", 
  ""libs/iostreams"": ""a5b52f079b29dd8fe61ff13d896ec24c48248d49"", 
  ""libs/iterator"": ""22dd100dfded2e8e450b8a079ff2b482f46a9ccc"", 
  ""libs/lexical_cast"": ""038e80ec7a7f34f61379c8885f386b230ef09624"", 
  ""libs/math"": ""e7ca10d04e070ca1c18cc0d5dc21ae1218baf36e"", 
  ""libs/move"": ""87ba5a1fcd6a87d37bb57679b15c63fbcfab88a1"", 
  ""libs/mpl"": ""f023a68f786652749a0809584af1f205f0c2c820"", 
  ""libs/numeric/conversion"": ""f4c6bd971154449e9c76f3f0573799cea772d70a"", 
  ""libs/optional"": ""ede89602f7553a0c76700a57ee519b7f0e4a0d3f"", 
  ""libs/predef"": ""e98eff209ba64fc772cb78b8f67637c08bb97e91"", 
  ""libs/preprocessor"": ""4e29a160b9260c6708d41ce895b499a28c31d5d6"", 
  ""libs/program_options"": ""fae2d4c57b6c70e19e00cd6b93f4ef4f4c6681e2"", 
  ""libs/proto"": ""990af3a70015e037e09103f5d6dbc4eeb833594e"", 
  ""libs/range"": ""0e931f4a80521acb00ff76c03237b0804b2cc572"", 
  ""libs/ratio"": ""d7773512aa7c123309d0f50fe55ab6b6c724357c"", 
  ""libs/rational"": ""d64b2c1b71d1f766cc4f3122462ac063135781c2"", 
  ""libs/smart_ptr"": ""4db7219c32022e025b228f7a487b91b5914aede6"", 
  ""libs/spirit"": ""25c00abf36a1bdce32177632d7e0bbcb03869051"", 
  ""libs/static_assert"": ""87f3be4a8fe6fa32646aa01782dda29e6eeb0b4c"", 
  ""libs/system"": ""e5da5ce2cfef69630687434b292507af9fda83d9"", 
  ""libs/test"": ""b3d233a360e104c146619d5fc93149d361cfef59"", 
  ""libs/throw_exception"": ""c89a2db1122302e90ebad9cec0b49d77283a6566"", 
  ""libs/timer"": ""65d06352434dcb7812c866014f4f05e337bfa900"", 
  ""libs/tokenizer"": ""1d204ae9798edf38caf7e6107099c5edff905a3c"", 
  ""libs/tuple"": ""d77e569c899f7eb3d1f255889e739d586ba5900f"", 
  ""libs/type_index"": ""1ff942f3297e83bbf915bd0a943dbd54e2d332de"", 
  ""libs/type_traits"": ""a0140edf50b5e527bc17fe170c7ad3f7a9e85b32"", 
  ""libs/typeof"": ""6aea11f3df0689b6e5c2035e42bfa5df237df0b5"", 
  ""libs/unordered"": ""84dd473a5dfbb5bc7f353fd3448e00da7425f2aa"", 
  ""libs/utility"": ""1caa745dd72b2cffebafa904658fde0e9cac1232"", 
  ""libs/wave"": ""421a43e9fb9b914c0651e89051523033dc987b36"", 
  ""libs/winapi"": ""463842aa4a45fae68375da6ad441d3c97fab8330"", 
  ""libs/xpressive"": ""2f5bf84198c48f8561918cf0241c5c7af0991981"", 
  ""tools/boostbook"": ""22c94baebb4ea7d7b0b47e0e1017e69623874569"", 
  ""tools/build"": ""9a8453e3b586cc3dd88d609040bd7ae8529bfea1"", 
  ""tools/inspect"": ""b0386f5c64da235d8912bb45dfa55475f2ef7545"", 
  ""tools/quickbook"": ""08663596f8fd32046c346ebded75dcdc505c9bbe""
}
".
