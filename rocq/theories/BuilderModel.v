(* contract_generator/builder.py and writer.py: what goes into a contract package, and writing it to disk.
   The disk is a map from file paths to contents (directories are implied by the paths of files); a source directory is
   a tree of names, walked the way os.walk does. *)
From Coq Require Import String Ascii ZArith.
From stdpp Require Import base list strings gmap.
From Verif Require Import Res.
Local Open Scope string_scope.

(* ---------------------------------------------------- Python string and path functions ---- *)
(* s.find(sub) != -1 *)
Fixpoint contains (sub s : string) : bool :=
  String.prefix sub s || match s with EmptyString => false | String _ s' => contains sub s' end.
(* s.replace(old, new) for a non-empty old: leftmost occurrences first, not overlapping; skip = characters still to drop *)
Fixpoint replace_from (old new : string) (skip : nat) (s : string) : string :=
  match s with
  | EmptyString => EmptyString
  | String c s' =>
      match skip with
      | S k => replace_from old new k s'
      | O => if String.prefix old s then new ++ replace_from old new (String.length old - 1) s' else String c (replace_from old new 0 s')
      end
  end.
Definition replace (s old new : string) : string := replace_from old new 0 s.
Fixpoint ends_slash (s : string) : bool :=
  match s with EmptyString => false | String c EmptyString => Ascii.eqb c "/" | String _ s' => ends_slash s' end.
Definition starts_slash (s : string) : bool := match s with String c _ => Ascii.eqb c "/" | EmptyString => false end.
(* posixpath.join *)
Definition path_join (a b : string) : string :=
  if starts_slash b then b else if bool_decide (a = "") || ends_slash a then a ++ b else a ++ "/" ++ b.
(* posixpath.basename *)
Fixpoint basename (s : string) : string :=
  if contains "/" s then match s with EmptyString => "" | String _ s' => basename s' end else s.

(* ------------------------------------------------------------------------ Builder ---- *)
(* a directory: the names of its files and its sub-directories *)
Inductive tree := Tree (files : list string) (dirs : list (string * tree)).
(* os.walk, top down: each directory's path with the names of its files *)
Fixpoint walk (dir : string) (t : tree) : list (string * list string) :=
  match t with
  | Tree files dirs => (dir, files) :: flat_map (fun nt => walk (path_join dir nt.1) nt.2) dirs
  end.
(* builder.py:24,38: namedtuple Contract *)
Record contract := Contract { ct_name : string; ct_paths : list (string * string) }.
Section builder.
Variable source : string -> option tree. (* the directory root/name for each contract name; os.walk of a missing directory yields nothing *)

(* builder.py:55-78 _append_contract_on_path_list.  NB [continue] skips the files of a directory called tests but not
   its sub-directories *)
Definition own_files (root name : string) : list (string * string) :=
  flat_map (fun '(file_path, files) =>
    if bool_decide (basename file_path = "tests") then []
    else flat_map (fun filename =>
           if contains "__pycache__" file_path then []
           else let cur := path_join file_path filename in
                [(cur, if bool_decide (filename = "package.json") then path_join name filename else replace cur root name)]) files)
    (match source name with Some t => walk (path_join root name) t | None => [] end).
(* builder.py:80-91 _append_dependencies_on_path_list *)
Definition dependency_files (root name : string) (deps : list string) : list (string * string) :=
  map (fun d => (path_join root d, path_join name d)) deps.
(* builder.py:38-45: one round of the loop in __init__; [-1] of an empty list is an IndexError *)
Definition build_one (cfg : gmap string (list string)) (root name : string) : res contract :=
  match cfg !! name with
  | None => Err "KeyError"
  | Some deps =>
      match last deps with
      | None => Err "IndexError"
      | Some d =>
          Ok (Contract name (own_files root name ++
               if bool_decide (d = "NOTICE") then ("NOTICE", path_join name "NOTICE") :: dependency_files root name (removelast deps)
               else dependency_files root name deps))
      end
  end%list.
(* builder.py:26-46 __init__; all_names: the keys of config, used when no contracts are named *)
Fixpoint build_list (cfg : gmap string (list string)) (root : string) (names : list string) : res (list contract) :=
  match names with
  | [] => Ok []
  | n :: names' =>
      match build_one cfg root n with
      | Err e => Err e
      | Ok c => match build_list cfg root names' with Err e => Err e | Ok cs => Ok (c :: cs) end
      end
  end.
Definition build (cfg : gmap string (list string)) (all_names : list string) (root : string) (contracts : list string) : res (list contract) :=
  build_list cfg root (match contracts with [] => all_names | _ => contracts end).
End builder.

(* ------------------------------------------------------------------------ writers ---- *)
Notation disk := (gmap string string).
Definition under (dir p : string) : bool := String.prefix (dir ++ "/") p.
(* shutil.rmtree *)
Definition rmtree (dir : string) (d : disk) : disk := filter (fun pc => under dir pc.1 = false) d.
(* shutil.copy: FileNotFoundError, SameFileError *)
Definition copy (src dst : string) (d : disk) : res disk :=
  match d !! src with
  | None => Err "FileNotFoundError"
  | Some x => if bool_decide (src = dst) then Err "SameFileError" else Ok (<[dst := x]> d)
  end.
Fixpoint copy_all (out : string) (l : list (string * string)) (d : disk) : res disk :=
  match l with
  | [] => Ok d
  | (src, dst) :: l' => match copy src (path_join out dst) d with Ok d' => copy_all out l' d' | Err e => Err e end
  end.
(* writer.py:43-60 FileWriter.write *)
Fixpoint file_write (out : string) (cs : list contract) (d : disk) : res disk :=
  match cs with
  | [] => Ok d
  | c :: cs' => match copy_all out (ct_paths c) (rmtree (path_join out (ct_name c)) d) with Ok d' => file_write out cs' d' | Err e => Err e end
  end.
(* writer.py:62-71 FileWriter.clean: True if there was something to remove *)
Definition clean (out : string) (d : disk) : bool * disk :=
  (existsb (under out) (map fst (map_to_list d)), rmtree out d).
(* writer.py:99-117 ZipWriter.write: the entries of the archive, in order *)
Fixpoint zip_entries (l : list (string * string)) (d : disk) : res (list (string * string)) :=
  match l with
  | [] => Ok []
  | (src, dst) :: l' =>
      match d !! src with
      | None => Err "FileNotFoundError"
      | Some x => match zip_entries l' d with Ok es => Ok ((dst, x) :: es) | Err e => Err e end
      end
  end.
Definition zip_write (cs : list contract) (d : disk) : res (list (string * string)) := zip_entries (flat_map ct_paths cs) d.
(* writer.py:127-138 ZipWriter.store_to_file: extractall, in order *)
Definition zip_extract (out : string) (es : list (string * string)) (d : disk) : disk :=
  fold_left (fun d e => <[path_join out e.1 := e.2]> d) es (rmtree out d).

(* contract_generator/config.py:28-100 *)
Definition dex_config_list : list (string * list string) :=
  [("flexible_token", ["interfaces/__init__.py"; "interfaces/abc_irc_token.py"; "interfaces/abc_token_holder.py"; "interfaces/abc_owned.py"; "interfaces/abc_flexible_token.py"; "irc_token/__init__.py"; "irc_token/irc_token.py"; "utility/__init__.py"; "utility/owned.py"; "utility/token_holder.py"; "utility/utils.py"; "utility/proxy_score.py"; "NOTICE"]);
   ("icx_token", ["interfaces/__init__.py"; "interfaces/abc_icx_token.py"; "interfaces/abc_irc_token.py"; "interfaces/abc_token_holder.py"; "interfaces/abc_owned.py"; "irc_token/__init__.py"; "irc_token/irc_token.py"; "utility/__init__.py"; "utility/owned.py"; "utility/token_holder.py"; "utility/utils.py"; "utility/proxy_score.py"; "NOTICE"]);
   ("irc_token", ["interfaces/__init__.py"; "interfaces/abc_irc_token.py"]);
   ("score_registry", ["interfaces/__init__.py"; "interfaces/abc_score_registry.py"; "interfaces/abc_owned.py"; "utility/__init__.py"; "utility/owned.py"; "utility/utils.py"; "utility/proxy_score.py"; "NOTICE"]);
   ("network", ["interfaces/__init__.py"; "interfaces/abc_flexible_token.py"; "interfaces/abc_irc_token.py"; "interfaces/abc_icx_token.py"; "interfaces/abc_token_holder.py"; "interfaces/abc_owned.py"; "interfaces/abc_converter.py"; "utility/__init__.py"; "utility/owned.py"; "utility/token_holder.py"; "utility/utils.py"; "utility/proxy_score.py"; "NOTICE"]);
   ("converter", ["formula/__init__.py"; "formula/fixed_map_formula.py"; "interfaces/__init__.py"; "interfaces/abc_formula.py"; "interfaces/abc_converter.py"; "interfaces/abc_irc_token.py"; "interfaces/abc_score_registry.py"; "interfaces/abc_flexible_token.py"; "interfaces/abc_token_holder.py"; "interfaces/abc_owned.py"; "utility/__init__.py"; "utility/managed.py"; "utility/owned.py"; "utility/utils.py"; "utility/proxy_score.py"; "utility/flexible_token_controller.py"; "utility/token_holder.py"; "NOTICE"])].
Definition dex_config : gmap string (list string) := list_to_map dex_config_list.

(* ------------------------------------------------------------- specification ---- *)
(* path components with slashes between them *)
Definition slashed (l : list string) : string := String.concat "/" l.
(* the file f in the sub-directory ds (outermost first) of a directory *)
Inductive has_file : tree -> list string -> string -> Prop :=
| file_here files dirs f : f ∈ files -> has_file (Tree files dirs) [] f
| file_below files dirs n t ds f : (n, t) ∈ dirs -> has_file t ds f -> has_file (Tree files dirs) (n :: ds) f.
Definition is_name (n : string) : Prop := n <> "" /\ contains "/" n = false.
Inductive tree_ok : tree -> Prop :=
| tree_ok_intro files dirs : Forall is_name files -> Forall (fun nt => is_name nt.1 /\ tree_ok nt.2) dirs -> tree_ok (Tree files dirs).
(* a contract's own file is packaged if the directory it is directly in is not called tests and no component of its
   path mentions __pycache__ *)
Definition kept (root name : string) (ds : list string) : Prop :=
  last (name :: ds) <> Some "tests" /\ Forall (fun c => contains "__pycache__" c = false) (root :: name :: ds).
Inductive packaged (source : string -> option tree) (root name : string) (deps : list string) : string -> string -> Prop :=
| pk_own t ds f : source name = Some t -> has_file t ds f -> kept root name ds -> f <> "package.json" ->
    packaged source root name deps (slashed (root :: name :: ds ++ [f])%list) (slashed (name :: name :: ds ++ [f])%list)
| pk_json t ds : source name = Some t -> has_file t ds "package.json" -> kept root name ds ->
    packaged source root name deps (slashed (root :: name :: ds ++ ["package.json"])%list) (slashed [name; "package.json"])
| pk_dep i d : deps !! i = Some d -> (d <> "NOTICE" \/ S i <> length deps) ->
    packaged source root name deps (slashed [root; d]) (slashed [name; d])
| pk_notice : last deps = Some "NOTICE" -> packaged source root name deps "NOTICE" (slashed [name; "NOTICE"]).
