(** Syntax trees for the subset of Go that the package uses. [SrcCode] holds the trees of the functions of the package, printed
    by tools/gen_srccode.py from the text of the sources; [SrcSem] gives them a meaning. *)
Require Import ZArith String List.

Inductive expr : Set :=
| EV (x : string)                                      (* a variable, of the function or of a package *)
| EI (z : Z)                                           (* an integer constant *)
| ES (s : string)                                      (* a string constant *)
| ET (t : string)                                      (* a type, as argument of make and new *)
| ESel (e : expr) (f : string)                         (* e.f *)
| EIdx (e i : expr)                                    (* e[i] *)
| ESlice (e : expr) (lo hi : option expr)              (* e[lo:hi] *)
| EBin (op : string) (a b : expr)
| EUn (op : string) (a : expr)                         (* including & and * *)
| ECall (f : string) (args : list expr)                (* f(args): a function, a closure, a conversion or a builtin *)
| ECallSpread (f : string) (args : list expr)          (* f(args...) *)
| EMeth (e : expr) (m : string) (args : list expr)     (* e.m(args) *)
| EComp (t : string) (fs : list (string * expr))       (* T{...}; the name is empty when the value has no key *)
| EFunc (ps rs : list (string * string)) (b : list stmt)  (* func(ps) rs { b } *)
with stmt : Set :=
| SDef (xs : list string) (es : list expr)             (* xs := es *)
| SVar (x t : string)                                  (* var x t *)
| SAssign (ls es : list expr)                          (* ls = es *)
| SOp (op : string) (l e : expr)                       (* l op= e; also ++ and -- *)
| SExpr (e : expr)
| SIf (init : list stmt) (c : expr) (t e : list stmt)
| SFor (init : list stmt) (c : option expr) (post body : list stmt)
| SRange (k v : string) (e : expr) (body : list stmt)
| SSwitch (e : expr) (cs : list (option (list expr) * list stmt))
| SBlock (b : list stmt)
| SRet (es : list expr)
| SBreak
| SContinue.

(** Parameters (the receiver first) and results with the text of their types, and the body. *)
Record func : Set := mkFunc { f_params : list (string * string); f_results : list (string * string); f_body : list stmt }.
