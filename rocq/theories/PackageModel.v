(* build.py (the command line tool), interrupted builds, and the imports of the packaged modules. *)
From Coq Require Import String Ascii ZArith.
From stdpp Require Import base list strings gmap.
From Verif Require Import Res BuilderModel.
Local Open Scope string_scope.
Local Open Scope list_scope.

(* ------------------------------------------------------------------------------ build.py ---- *)
(* what is printed *)
Inductive message :=
| RemovedBuildDirectory (* build.py:54 *)
| NoBuildDirectory      (* build.py:56 *)
| BuiltContracts        (* build.py:69 *)
| WrongContractName.    (* build.py:71 *)
(* build.py:74-84 main, with clean_build_dir (48-56) and write_contracts_to_file_system (59-71).  here: the directory part of
   the path the script was started with, CURRENT_PATH (build.py:22; empty if started in its own directory); args: the arguments
   (none: argparse's default, an empty text).  Paths are the texts the program uses; relative ones are relative to the current
   directory.  Err: an exception that is not caught. *)
Definition main (source : string -> option tree) (cfg : gmap string (list string)) (all_names : list string) (here : string) (args : list string)
    (d : disk) : res (message * disk) :=
  let out := path_join here "build" in
  if bool_decide (head args = Some "clean") then let '(was, d') := clean out d in Ok (if was then RemovedBuildDirectory else NoBuildDirectory, d')
  else
    match build source cfg all_names (path_join here "contracts") args with
    | Err e => if String.eqb e "KeyError" then Ok (WrongContractName, d) else Err e
    | Ok cs => match file_write out cs d with Ok d' => Ok (BuiltContracts, d') | Err e => Err e end
    end.

(* -------------------------------------------------------------------- interrupted builds ---- *)
(* The disks on which FileWriter.write (writer.py:43-60) can be stopped, by an exception, a kill or a crash.
   While copying (writer.py:57-60): between two files, or in the middle of one, whose contents are then arbitrary. *)
Inductive half_copied (out : string) : list (string * string) -> disk -> disk -> Prop :=
| hc_stop l d : half_copied out l d d
| hc_torn s t l d x : half_copied out ((s, t) :: l) d (<[path_join out t := x]> d)
| hc_next s t l d d1 d2 : copy s (path_join out t) d = Ok d1 -> half_copied out l d1 d2 -> half_copied out ((s, t) :: l) d d2.
Inductive interrupted (out : string) : list contract -> disk -> disk -> Prop :=
| in_stop cs d : interrupted out cs d d
(* while removing the old package (writer.py:55-56): any part of it is gone *)
| in_removing c cs d d' : (forall p, under (path_join out (ct_name c)) p = false -> d' !! p = d !! p) ->
    (forall p x, d' !! p = Some x -> d !! p = Some x) -> interrupted out (c :: cs) d d'
| in_copying c cs d d' : half_copied out (ct_paths c) (rmtree (path_join out (ct_name c)) d) d' -> interrupted out (c :: cs) d d'
| in_next c cs d d1 d' : copy_all out (ct_paths c) (rmtree (path_join out (ct_name c)) d) = Ok d1 -> interrupted out cs d1 d' ->
    interrupted out (c :: cs) d d'.

(* -------------------------------------------------------------------------------- imports ---- *)
(* A module of the source tree: its path without .py, such as [utility; owned] for contracts/utility/owned.py; directories are
   packages, their module is the directory's __init__.py. *)
Notation modname := (list string).
(* from ..a.b import c: two dots, [a; b] *)
Notation import := (nat * list string)%type.
(* the relative import statements of the contracts' modules (all other imports are of iconservice and of Python's library);
   modules that are not listed have none *)
Definition import_table : list (modname * list import) :=
  [ (* converter/converter.py:17-25 *)
    (["converter"; "converter"], [(2, ["formula"]); (2, ["interfaces"; "abc_converter"]); (2, ["interfaces"; "abc_flexible_token"]); (2, ["interfaces"; "abc_irc_token"]);
      (2, ["interfaces"; "abc_score_registry"]); (2, ["utility"; "flexible_token_controller"]); (2, ["utility"; "managed"]); (2, ["utility"; "proxy_score"]); (2, ["utility"; "utils"])]);
    (* formula/__init__.py:16 *)
    (["formula"], [(1, ["fixed_map_formula"])]);
    (* formula/fixed_map_formula.py:22-23 *)
    (["formula"; "fixed_map_formula"], [(2, ["utility"; "utils"]); (2, ["interfaces"; "abc_formula"])]);
    (* network/network.py:17-23 *)
    (["network"; "network"], [(2, ["interfaces"; "abc_converter"]); (2, ["interfaces"; "abc_icx_token"]); (2, ["interfaces"; "abc_irc_token"]);
      (2, ["interfaces"; "abc_flexible_token"]); (2, ["utility"; "proxy_score"]); (2, ["utility"; "token_holder"]); (2, ["utility"; "utils"])]);
    (* interfaces/abc_icx_token.py:18-19, abc_flexible_token.py:18-19, abc_token_holder.py:18 *)
    (["interfaces"; "abc_icx_token"], [(1, ["abc_irc_token"]); (1, ["abc_token_holder"])]);
    (["interfaces"; "abc_flexible_token"], [(1, ["abc_irc_token"]); (1, ["abc_token_holder"])]);
    (["interfaces"; "abc_token_holder"], [(1, ["abc_owned"])]);
    (* flexible_token/flexible_token.py:17-20, icx_token/icx_token.py:17-20 *)
    (["flexible_token"; "flexible_token"], [(2, ["interfaces"; "abc_flexible_token"]); (2, ["irc_token"; "irc_token"]); (2, ["utility"; "token_holder"]); (2, ["utility"; "utils"])]);
    (["icx_token"; "icx_token"], [(2, ["interfaces"; "abc_icx_token"]); (2, ["irc_token"; "irc_token"]); (2, ["utility"; "token_holder"]); (2, ["utility"; "utils"])]);
    (* utility/owned.py:19, flexible_token_controller.py:17-20, token_holder.py:16-20, managed.py:17-18 *)
    (["utility"; "owned"], [(2, ["interfaces"; "abc_owned"])]);
    (["utility"; "flexible_token_controller"], [(1, ["proxy_score"]); (1, ["token_holder"]); (1, ["utils"]); (2, ["interfaces"; "abc_flexible_token"])]);
    (["utility"; "token_holder"], [(1, ["owned"]); (1, ["utils"]); (2, ["interfaces"; "abc_irc_token"]); (2, ["interfaces"; "abc_token_holder"]); (2, ["utility"; "proxy_score"])]);
    (["utility"; "managed"], [(1, ["owned"]); (1, ["utils"])]);
    (* irc_token/irc_token.py:18, score_registry/score_registry.py:17-19 *)
    (["irc_token"; "irc_token"], [(2, ["interfaces"; "abc_irc_token"])]);
    (["score_registry"; "score_registry"], [(2, ["interfaces"; "abc_score_registry"]); (2, ["utility"; "owned"]); (2, ["utility"; "utils"])])
  ]%nat.
Definition imports (m : modname) : list import := default [] (snd <$> find (fun e => bool_decide (e.1 = m)) import_table).
(* directories of contracts/ *)
Definition is_package (m : modname) : bool := match m with [_] => true | _ => false end.
(* the file of a module, as path components *)
Definition file_of (m : modname) : list string :=
  if is_package m then m ++ ["__init__.py"] else removelast m ++ [String.append (List.last m "") ".py"].
(* the module a relative import in m names: one dot is the package of m (m itself if it is a package), each further dot its parent *)
Definition resolve (m : modname) (i : import) : modname :=
  let up := if is_package m then i.1 - 1 else i.1 in take (length m - up) m ++ i.2.
(* The modules loaded when the platform loads the package of a contract: the main module (package.json: main_file is name.name),
   with a module its parent packages, and everything loaded modules import. *)
Inductive loaded (name : string) : modname -> Prop :=
| ld_main : loaded name [name; name]
| ld_parent m x : loaded name (m ++ [x]) -> m <> [] -> loaded name m
| ld_import m i : loaded name m -> i ∈ imports m -> loaded name (resolve m i).
