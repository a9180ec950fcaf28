(* Syntax of the part of Python that the contracts are written in: the nodes of Python's own [ast] module.
   PySource.v is the syntax of the files under /repo/contracts, generated by tools/gen_source.py.
   Dropped by the generator: docstrings, comments, type annotations (except the decorators, which are kept). *)
From Coq Require Import ZArith String List.

Inductive binop := BAdd | BSub | BMul | BFloorDiv | BMod | BPow | BShl | BShr | BAnd | BOr.
Inductive cmpop := CEq | CNe | CLt | CLe | CGt | CGe | CIs | CIsNot | CIn | CNotIn.

Inductive expr :=
| EInt (z : Z) | EStr (s : string) | EBytes (s : string) | EBool (b : bool) | ENone
| EName (x : string)
| EAttr (e : expr) (a : string)
| ECall (f : expr) (args : list expr) (kw : list (string * expr))
| EBin (op : binop) (a b : expr)
| ENot (e : expr) | ENeg (e : expr)
| ECompare (e : expr) (rest : list (cmpop * expr))          (* chained comparisons *)
| EAndL (es : list expr) | EOrL (es : list expr)
| EIf (c a b : expr)                                        (* a if c else b *)
| ESub (e i : expr)                                         (* e[i] *)
| EListL (es : list expr) | ETupleL (es : list expr) | EDictL (kv : list (expr * expr))
| EListComp (elt : expr) (targets : list string) (iter : expr) (conds : list expr)
| ESetComp (elt : expr) (targets : list string) (iter : expr) (conds : list expr)
| ELambda (params : list string) (body : expr)
| EFString.                                                 (* f'...', used for messages only *)

Inductive stmt :=
| SExpr (e : expr)
| SAssign (targets : list expr) (e : expr)                  (* t1 = t2 = ... = e *)
| SAug (target : expr) (op : binop) (e : expr)              (* t op= e *)
| SIf (c : expr) (th el : list stmt)
| SWhile (c : expr) (body : list stmt)
| SFor (x : string) (iter : expr) (body : list stmt)
| SReturn (e : option expr)
| SDel (e : expr)
| STry (body : list stmt) (handlers : list (list stmt))     (* the handlers' exception classes are dropped *)
| SPass.

Record fundef := FunDef {
  f_name : string;
  f_params : list (string * option expr);                   (* with default values; self included *)
  f_decos : list expr;
  f_body : list stmt }.
Record classdef := ClassDef {
  k_name : string;
  k_bases : list expr;
  k_stmts : list stmt;                                      (* assignments in the class body *)
  k_methods : list fundef }.
Record module := PyModule {
  m_path : string;                                          (* dotted path below contracts *)
  m_stars : list string;                                    (* from m import * *)
  m_imports : list (string * (string * string));            (* name, (module, name there) *)
  m_assigns : list (string * expr);
  m_funs : list fundef;
  m_classes : list classdef }.
