(** What tools/build_environment.py is for: C84. *)

From Coq Require Import ZArith List Bool Permutation Sorted.
From Verif Require Import Base Spec Environment.
Import ListNotations.
Open Scope Z_scope.

(** The characters of strings. *)
Definition ascii_text (s : str) : Prop := Forall (fun c => 0 <= c < 128) s.

(** The first of two different characters decides which of two texts comes first. *)
Inductive before : str -> str -> Prop :=
| before_end : forall c t, before [] (c :: t)
| before_here : forall c d s t, c < d -> before (c :: s) (d :: t)
| before_later : forall c s t, before s t -> before (c :: s) (c :: t).

(** [w] is the first word of [s]. *)
Definition blank_char (c : char) : Prop := c = 32 \/ 9 <= c <= 13.
Definition starts_with_word (s w : str) : Prop :=
  exists a b, s = a ++ w ++ b /\ w <> [] /\ Forall blank_char a /\ (forall c, In c w -> ~ blank_char c)
    /\ (b = [] \/ exists c b', b = c :: b' /\ blank_char c).

(** The directory of a submodule: names are relative to a directory that is named
    without a slash at the end. *)
Definition plain_dir (d : str) : Prop := exists d' c, d = d' ++ [c] /\ c <> 47.
Definition relative (k : str) : Prop := forall t, k <> 47 :: t.
Definition subdir (d k : str) : str := d ++ [47] ++ k.

(** The programs that prepare the clone: where and with which arguments. *)
Definition names_of (d : list (str * str)) : list str := map fst d.
Definition preparation (here git repo out : str) (names : list str) : list (str * list str) :=
  [ (here, [git; text "clone"; repo; out]);
    (out, git :: text "submodule" :: text "init" :: text "--" :: filter (fun k => match k with [] => false | _ => true end) names);
    (out, [git; text "submodule"; text "update"]) ].
(** and the ones for the submodules *)
Definition checkout_all (git out : str) (d : list (str * str)) : list (str * list str) :=
  map (fun x => (subdir out (fst x), [git; text "checkout"; snd x])) d.
Definition ask_all (git out ref : str) (d : list (str * str)) : list (str * list str) :=
  concat (map (fun x => [ (subdir out (fst x), [git; text "fetch"]); (subdir out (fst x), [git; text "show-ref"; ref]) ]) d).

Definition run_of (c : call) : str * list str := (call_dir c, call_args c).
Definition succeeded (c : call) : Prop := call_out c <> None.

(** [cs] carries out the plan: every one of the programs was run, and successfully. *)
Definition carried_out (plan : list (str * list str)) (cs : list call) : Prop :=
  map run_of cs = plan /\ Forall succeeded cs.
(** [cs] breaks off in it: the last one of some of the programs failed. *)
Definition broken_off (plan : list (str * list str)) (cs : list call) : Prop :=
  exists cs' c rest, cs = cs' ++ [c] /\ plan = map run_of cs ++ rest
    /\ Forall succeeded cs' /\ call_out c = None.

(** The order of dictionaries is some order of their items. *)
Definition some_order (order : list (str * str) -> list (str * str)) : Prop :=
  forall d, Permutation (order d) d.

(** [head w d]: the commit that is checked out in the directory [d].  A program like git
    puts there the commit it is told to, and changes nothing elsewhere. *)
Definition checks_out {W : Type} (popen : list str -> str -> W -> W * option str)
  (git : str) (head : W -> str -> option str) : Prop :=
  forall c d w w' o, popen [git; text "checkout"; c] d w = (w', Some o) ->
    head w' d = Some c /\ forall d', d' <> d -> head w' d' = head w d'.
