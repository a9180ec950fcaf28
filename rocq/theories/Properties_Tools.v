(* C56-C58: the storage wrapper, the proxy classes and the package builder. *)
From Coq Require Import String Ascii ZArith.
From stdpp Require Import base list strings gmap.
From Verif Require Import Res StorageModel ProxyModel BuilderModel BuilderProofs.
Local Open Scope Z_scope.
Local Open Scope string_scope.
Local Open Scope list_scope.

(* ===================================================================================== C56 ==== *)
(* Fields declared once, under public names other than db; then any assignments to public names: the assignments never
   fail and a declared variable reads as the value last assigned to it (as its declared type), else as what the
   database held before, else as the default of its type.  Assignments to other names do not matter. *)
Theorem C56_reads_the_last_write (db : gmap string value) (fs : list field) (ws : list (string * value)) :
  good_fields fs -> Forall (fun w => public w.1) ws ->
  exists s, (match add_fields fs (new_storage db) with Ok s0 => write_all ws s0 | Err e => Err e end) = Ok s /\
    forall n t, (n, VarDB, t) ∈ fs -> get_attr s n = Ok (PValue (expected db n t ws)).
Proof.
  intros HG HP. destruct (add_fields_ok fs (new_storage db) [] HG (declared_new db)) as (s0 & -> & HD & Hdb); [by cbn; rewrite lookup_singleton|].
  cbn [app] in HD. destruct (write_all_declared fs ws s0 HG HD HP) as (s & -> & HD' & Hr). exists s. split; [done|].
  intros n t Hn. unfold get_attr. destruct HG as [_ HG]. destruct (HG n VarDB t Hn) as [Hpub _]. unfold public in Hpub. rewrite Hpub.
  rewrite (d_fields _ _ HD' n VarDB t Hn). unfold var_get, expected. rewrite (Hr n t Hn), Hdb. cbn [new_storage st_db]. by destruct (last_write n ws).
Qed.
(* in particular a value of the declared type is read back exactly, whatever is assigned to other names afterwards *)
Corollary C56_a_write_is_read_back (db : gmap string value) fs ws ws' n t v :
  good_fields fs -> Forall (fun w => public w.1) (ws ++ (n, v) :: ws') -> (n, VarDB, t) ∈ fs -> type_of v = Some t -> (forall w, w ∈ ws' -> w.1 <> n) ->
  exists s, (match add_fields fs (new_storage db) with Ok s0 => write_all (ws ++ (n, v) :: ws') s0 | Err e => Err e end) = Ok s /\
    get_attr s n = Ok (PValue v).
Proof.
  intros HG HP Hn Ht Hw. destruct (C56_reads_the_last_write db fs _ HG HP) as (s & E & H). exists s. split; [done|]. rewrite (H n t Hn). unfold expected.
  assert (last_write n (ws ++ (n, v) :: ws') = Some v) as ->; [|unfold decode; by rewrite decide_True].
  clear -Hw. induction ws as [|[m u] ws IH]; cbn.
  - assert (last_write n ws' = None) as ->; [|by rewrite decide_True]. induction ws' as [|[m u] ws' IH]; [done|]. cbn. rewrite IH.
    + rewrite decide_False; [done|]. apply (Hw (m, u)). constructor.
    + intros w Hw'. apply Hw. by constructor.
  - by rewrite IH.
Qed.
(* what is read survives the object: a new Storage with the same fields over the database as it was left reads the same *)
Theorem C56_values_persist (db : gmap string value) fs ws s n t :
  good_fields fs -> Forall (fun w => public w.1) ws -> (n, VarDB, t) ∈ fs ->
  (match add_fields fs (new_storage db) with Ok s0 => write_all ws s0 | Err e => Err e end) = Ok s ->
  exists s', add_fields fs (new_storage (st_db s)) = Ok s' /\ get_attr s' n = get_attr s n.
Proof.
  intros HG HP Hn E. destruct (C56_reads_the_last_write db fs ws HG HP) as (s1 & E1 & H1). rewrite E in E1. injection E1 as <-.
  destruct (C56_reads_the_last_write (st_db s) fs [] HG) as (s' & E' & H'); [constructor|]. exists s'.
  destruct (add_fields fs (new_storage (st_db s))) as [s0|] eqn:Ea; [|done]. cbn in E'. injection E' as <-. split; [done|].
  rewrite (H' n t Hn), (H1 n t Hn). do 2 f_equal. unfold expected. cbn [last_write].
  destruct (add_fields_ok fs (new_storage db) [] HG (declared_new db)) as (s2 & E2 & HD & Hdb); [by cbn; rewrite lookup_singleton|]. cbn [app] in HD.
  rewrite E2 in E. destruct (write_all_declared fs ws s2 HG HD HP) as (s3 & E3 & _ & Hr). rewrite E in E3. injection E3 as <-.
  rewrite (Hr n t Hn), Hdb. cbn [new_storage st_db]. by destruct (last_write n ws).
Qed.
(* an array or dictionary field always reads as its container: assigning to its name is never visible *)
Theorem C56_containers_cannot_be_replaced (db : gmap string value) fs ws s n c t :
  good_fields fs -> Forall (fun w => public w.1) ws -> (n, c, t) ∈ fs -> c <> VarDB ->
  (match add_fields fs (new_storage db) with Ok s0 => write_all ws s0 | Err e => Err e end) = Ok s ->
  get_attr s n = Ok (PContainer c n t).
Proof.
  intros HG HP Hn Hc E. destruct (add_fields_ok fs (new_storage db) [] HG (declared_new db)) as (s0 & E0 & HD & Hdb); [by cbn; rewrite lookup_singleton|].
  cbn [app] in HD. rewrite E0 in E. destruct (write_all_declared fs ws s0 HG HD HP) as (s1 & E1 & HD' & _). rewrite E in E1. injection E1 as <-.
  destruct HG as [_ HG]. destruct (HG n c t Hn) as [Hpub _]. unfold get_attr, public in *. rewrite Hpub, (d_fields _ _ HD' n c t Hn). by destruct c.
Qed.
Example C56_fields : list field := [("owner", VarDB, TAddress); ("total", VarDB, TInt); ("names", ArrayDB, TStr)].
Example C56_case : good_fields C56_fields /\
  (match add_fields C56_fields (new_storage {[ "total" := VInt 7 ]}) with
   | Ok s0 => match write_all [("owner", VAddress "hx1"); ("note", VInt 1); ("owner", VAddress "hx2")] s0 with
              | Ok s => (get_attr s "owner", get_attr s "total", get_attr s "names") | Err _ => (Err "", Err "", Err "") end
   | Err _ => (Err "", Err "", Err "") end) = (Ok (PValue (VAddress "hx2")), Ok (PValue (VInt 7)), Ok (PContainer ArrayDB "names" TStr)).
Proof.
  split; [|by vm_compute]. split.
  - cbn. repeat (apply NoDup_cons; split; [rewrite ?elem_of_cons, elem_of_nil; intuition discriminate|]). apply NoDup_nil_2.
  - intros n c t H. unfold C56_fields in H. rewrite !elem_of_cons, elem_of_nil in H.
    destruct H as [[= -> -> ->]|[[= -> -> ->]|[[= -> -> ->]|[]]]]; by split.
Qed.
(* the hypotheses are needed: a field called db replaces the database handle, so that no further field can be declared;
   a field whose name starts with an underscore makes the declaration of its namesake fail *)
Example C56_field_db : exists e, add_fields [("db", VarDB, TInt); ("x", VarDB, TInt)] (new_storage ∅) = Err e.
Proof. by vm_compute; eexists. Qed.
Example C56_field_underscore : exists e, add_fields [("_x", VarDB, TInt); ("x", VarDB, TInt)] (new_storage ∅) = Err e.
Proof. by vm_compute; eexists. Qed.

(* ===================================================================================== C57 ==== *)
(* Any sequence of requests from the start of the process.  For classes whose abstract methods are ordinary functions
   every request succeeds; *)
Theorem C57_every_request_succeeds (classes : nat -> pyclass) (l : list nat) i c :
  l !! i = Some c -> ordinary classes c -> exists p, (requests classes l no_caches).1 !! i = Some (Ok p).
Proof.
  intros Hi Ho. destruct (requests classes l no_caches) as [rs k] eqn:E. destruct (requests_ok classes l _ _ _ (kok_empty classes) E) as (_ & _ & _ & H & _).
  by eapply H.
Qed.
(* two requests return the same interface class exactly if they are for the same abstract class, *)
Theorem C57_same_class_same_proxy (classes : nat -> pyclass) (l : list nat) i j c c' p p' :
  l !! i = Some c -> l !! j = Some c' ->
  (requests classes l no_caches).1 !! i = Some (Ok p) -> (requests classes l no_caches).1 !! j = Some (Ok p') ->
  (c = c' <-> p = p') /\ (c = c' <-> p_id p = p_id p').
Proof.
  intros Hi Hj Hp Hp'. destruct (requests classes l no_caches) as [rs k] eqn:E. cbn in Hp, Hp'.
  destruct (requests_ok classes l _ _ _ (kok_empty classes) E) as (HK & _ & _ & _ & H).
  pose proof (H i c p Hi Hp) as H1. pose proof (H j c' p' Hj Hp') as H2.
  assert (p_id p = p_id p' -> c = c') as A by (intros; eapply (ok_distinct _ _ HK); done).
  assert (c = c' -> p = p') as B by (intros ->; congruence).
  split; split; [done|intros Ep; apply A; by rewrite Ep|intros Ec; by rewrite (B Ec)|done].
Qed.
(* the interface class has exactly one function for each abstract method of its abstract class, inherited ones
   included, under the method's name, made from that method; *)
Theorem C57_one_function_per_abstract_method (classes : nat -> pyclass) (l : list nat) i c p k :
  l !! i = Some c -> ordinary classes c -> (requests classes l no_caches).1 !! i = Some (Ok p) -> k = (requests classes l no_caches).2 ->
  p_abc p = c /\
  (forall n, is_Some (p_functions p !! n) <-> exists a, (n, a) ∈ c_attrs (classes c) /\ abstract_method a) /\
  (forall n a, (n, a) ∈ c_attrs (classes c) -> abstract_method a -> exists f, p_functions p !! n = Some f /\ k_made k !! f = Some (a_obj a)).
Proof.
  intros Hi Ho Hp Hk. destruct (requests classes l no_caches) as [rs k'] eqn:E. cbn in Hp, Hk. subst k'.
  destruct (requests_ok classes l _ _ _ (kok_empty classes) E) as (HK & _ & _ & _ & H). pose proof (H i c p Hi Hp) as H1.
  split; [by destruct (ok_next_p _ _ HK c p H1)|]. split.
  - intros n. split.
    + intros [f Hf]. apply (ok_funs _ _ HK c p H1 Ho) in Hf as (a & Ha & Ha' & _). exists a. by rewrite is_abstract_iff in Ha'.
    + intros (a & Ha & Ha'%is_abstract_iff). destruct (k_functions k !! a_obj a) as [f|] eqn:Ef; [|by destruct (ok_total _ _ HK c p H1 Ho n a Ha Ha')].
      exists f. apply (ok_funs _ _ HK c p H1 Ho). by exists a.
  - intros n a Ha Ha'%is_abstract_iff. destruct (k_functions k !! a_obj a) as [f|] eqn:Ef; [|by destruct (ok_total _ _ HK c p H1 Ho n a Ha Ha')].
    exists f. split; [apply (ok_funs _ _ HK c p H1 Ho); by exists a|]. by apply (ok_made _ _ HK).
Qed.
(* and a method shared by two abstract classes is one and the same function in both interface classes. *)
Theorem C57_shared_methods_share_the_function (classes : nat -> pyclass) (l : list nat) i j c c' p p' n n' a a' :
  l !! i = Some c -> l !! j = Some c' -> ordinary classes c -> ordinary classes c' ->
  (requests classes l no_caches).1 !! i = Some (Ok p) -> (requests classes l no_caches).1 !! j = Some (Ok p') ->
  (n, a) ∈ c_attrs (classes c) -> abstract_method a -> (n', a') ∈ c_attrs (classes c') -> abstract_method a' ->
  (a_obj a = a_obj a' <-> p_functions p !! n = p_functions p' !! n').
Proof.
  intros Hi Hj Ho Ho' Hp Hp' Ha Hm%is_abstract_iff Ha' Hm'%is_abstract_iff. destruct (requests classes l no_caches) as [rs k] eqn:E. cbn in Hp, Hp'.
  destruct (requests_ok classes l _ _ _ (kok_empty classes) E) as (HK & _ & _ & _ & H).
  pose proof (H i c p Hi Hp) as H1. pose proof (H j c' p' Hj Hp') as H2.
  destruct (k_functions k !! a_obj a) as [f|] eqn:Ef; [|by destruct (ok_total _ _ HK c p H1 Ho n a Ha Hm)].
  destruct (k_functions k !! a_obj a') as [f'|] eqn:Ef'; [|by destruct (ok_total _ _ HK c' p' H2 Ho' n' a' Ha' Hm')].
  assert (p_functions p !! n = Some f) as -> by (apply (ok_funs _ _ HK c p H1 Ho); by exists a).
  assert (p_functions p' !! n' = Some f') as -> by (apply (ok_funs _ _ HK c' p' H2 Ho'); by exists a').
  split.
  - intros Eo. congruence.
  - intros [= ->]. apply (ok_made _ _ HK) in Ef, Ef'. congruence.
Qed.
(* a method is only left out of a proxy, or the request fails, if a class has abstract methods that are no functions *)
Theorem C57_failures_are_no_functions (classes : nat -> pyclass) (l : list nat) i c e :
  l !! i = Some c -> (requests classes l no_caches).1 !! i = Some (Err e) -> ~ ordinary classes c.
Proof. intros Hi He Ho. destruct (C57_every_request_succeeds classes l i c Hi Ho) as [p Hp]. congruence. Qed.
(* the abstract classes of the tokens, with their shared methods: 10 name, 11 transfer, 12 owner, 13 issue; __init__ is not abstract *)
Example C57_classes (c : nat) : pyclass :=
  match c with
  | 0%nat => Class "ABCIRCToken" [("__init__", Attr 9 "__init__" true None true); ("name", Attr 10 "name" true (Some true) true); ("transfer", Attr 11 "transfer" true (Some true) true)]
  | _ => Class "ABCFlexibleToken" [("getOwner", Attr 12 "getOwner" true (Some true) true); ("issue", Attr 13 "issue" true (Some true) true);
                                   ("name", Attr 10 "name" true (Some true) true); ("transfer", Attr 11 "transfer" true (Some true) true)]
  end.
Example C57_case : ordinary C57_classes 0 /\ ordinary C57_classes 1 /\
  map (fun r => match r with Ok p => (p_id p, p_name p, map_to_list (p_functions p)) | Err _ => (99%nat, "", []) end) (requests C57_classes [0%nat; 1%nat; 0%nat] no_caches).1
  = [(2%nat, "ProxyScore(ABCIRCToken)", [("transfer", 1%nat); ("name", 0%nat)]);
     (5%nat, "ProxyScore(ABCFlexibleToken)", [("transfer", 1%nat); ("name", 0%nat); ("issue", 4%nat); ("getOwner", 3%nat)]);
     (2%nat, "ProxyScore(ABCIRCToken)", [("transfer", 1%nat); ("name", 0%nat)])].
Proof.
  assert (forall c, ordinary C57_classes c) as H.
  { intros [|c]; split; try (cbn; repeat (apply NoDup_cons; split; [rewrite ?elem_of_cons, elem_of_nil; intuition discriminate|]); apply NoDup_nil_2);
    intros n a Ha; cbn in Ha; rewrite !elem_of_cons, elem_of_nil in Ha; intuition (simplify_eq; by cbn in *). }
  split; [apply H|]. split; [apply H|]. by vm_compute.
Qed.

(* ===================================================================================== C58 ==== *)
(* What a build collects: for every contract asked for (all configured ones if none is named), in order, exactly the
   pairs (source, place in the package) of the specification [packaged]: the contract's own files at name/name/...,
   except those directly in a directory called tests and those on a path mentioning __pycache__; its package.json at
   name/package.json; its declared dependencies at name/dependency; and NOTICE if that is declared last. *)
Theorem C58_package_contents (source : string -> option tree) (cfg : gmap string (list string)) (all_names : list string) (root : string)
    (contracts : list string) (cs : list contract) :
  let names := match contracts with [] => all_names | _ => contracts end in
  plain_dir root -> Forall is_name names ->
  (forall n t, n ∈ names -> source n = Some t -> tree_ok t /\ root_unique root n t) ->
  (forall n ds, cfg !! n = Some ds -> Forall (fun d => starts_slash d = false) ds) ->
  build source cfg all_names root contracts = Ok cs ->
  Forall2 (fun n c => ct_name c = n /\
     exists deps, cfg !! n = Some deps /\ forall src dst, (src, dst) ∈ ct_paths c <-> packaged source root n deps src dst) names cs.
Proof. intros names Hr Hn Hs Hc. by apply build_list_spec. Qed.
(* a build is refused exactly for contracts that are not configured or have no dependencies listed *)
Theorem C58_refusals (source : string -> option tree) (cfg : gmap string (list string)) (all_names : list string) (root : string) (contracts : list string) :
  (exists cs, build source cfg all_names root contracts = Ok cs) <->
  Forall (fun n => exists d ds, cfg !! n = Some (d :: ds)) (match contracts with [] => all_names | _ => contracts end).
Proof. apply build_list_ok. Qed.
(* Hypotheses under which packages are written: as above; contracts named once; no two sources for one place; the
   sources are not inside a package directory that is about to be replaced. *)
Record build_ok (source : string -> option tree) (cfg : gmap string (list string)) (root out : string) (names : list string) : Prop := {
  bo_root : plain_dir root;
  bo_out : plain_dir out;
  bo_names : NoDup names /\ Forall is_name names;
  bo_trees : forall n t, n ∈ names -> source n = Some t -> tree_ok t /\ root_unique root n t;
  bo_deps : forall n ds, cfg !! n = Some ds -> Forall (fun d => starts_slash d = false) ds;
  bo_places : forall n deps src src' dst, n ∈ names -> cfg !! n = Some deps -> packaged source root n deps src dst -> packaged source root n deps src' dst -> src = src';
  bo_sources : forall n m deps src dst, n ∈ names -> m ∈ names -> cfg !! n = Some deps -> packaged source root n deps src dst -> under (slashed [out; m]) src = false }.
Lemma build_ok_facts source cfg root out names cs : build_ok source cfg root out names -> build_list source cfg root names = Ok cs ->
  writable out cs /\ map ct_name cs = names /\
  (forall c, c ∈ cs -> exists deps, ct_name c ∈ names /\ cfg !! ct_name c = Some deps /\ forall src dst, (src, dst) ∈ ct_paths c <-> packaged source root (ct_name c) deps src dst).
Proof.
  intros HB E. pose proof (build_list_spec cfg source root names cs (bo_root _ _ _ _ _ HB) (proj2 (bo_names _ _ _ _ _ HB)) (bo_trees _ _ _ _ _ HB) (bo_deps _ _ _ _ _ HB) E) as HF.
  assert (map ct_name cs = names) as Em.
  { clear -HF. induction HF as [|n c names cs [H _] _ IH]; [done|]. cbn. by rewrite H, IH. }
  assert (Hc : forall c, c ∈ cs -> exists deps, ct_name c ∈ names /\ cfg !! ct_name c = Some deps /\ forall src dst, (src, dst) ∈ ct_paths c <-> packaged source root (ct_name c) deps src dst).
  { intros c Hc. apply elem_of_list_lookup in Hc as [i Hi]. destruct (Forall2_lookup_r _ _ _ _ _ HF Hi) as (n & Hn & H1 & deps & H2 & H3).
    exists deps. rewrite H1. split; [by eapply elem_of_list_lookup_2|]. done. }
  split; [|done]. destruct (bo_names _ _ _ _ _ HB) as [HN Hnm]. rewrite Forall_forall in Hnm. split.
  - apply HB.
  - by rewrite Em.
  - intros c H. destruct (Hc c H) as (deps & ? & _). by apply Hnm.
  - intros c src dst H Hst. destruct (Hc c H) as (deps & _ & _ & Hp). apply Hp in Hst. by eapply packaged_prefix.
  - intros c c' src dst H Hst H'. destruct (Hc c H) as (deps & H1 & H2 & Hp). apply Hp in Hst. destruct (Hc c' H') as (deps' & H1' & _).
    rewrite join_plain; [|apply HB|by apply name_no_slash_end, Hnm]. exact (bo_sources _ _ _ _ _ HB _ _ _ _ _ H1 H1' H2 Hst).
Qed.
(* After FileWriter has written a build: below the directory of each contract lie exactly the packaged files, with the
   contents of their sources, whatever was there before; and nothing else on disk has changed. *)
Theorem C58_files_written (source : string -> option tree) (cfg : gmap string (list string)) (root out : string) (names : list string)
    (cs : list contract) (d d' : disk) :
  build_ok source cfg root out names -> build_list source cfg root names = Ok cs -> file_write out cs d = Ok d' ->
  (forall n deps q x, n ∈ names -> cfg !! n = Some deps ->
     d' !! slashed [out; n; q] = Some x <-> exists src, packaged source root n deps src (slashed [n; q]) /\ d !! src = Some x) /\
  (forall p, (forall n, n ∈ names -> under (slashed [out; n]) p = false) -> d' !! p = d !! p).
Proof.
  intros HB E HW. destruct (build_ok_facts _ _ _ _ _ _ HB E) as (Hwr & Em & Hc). destruct (file_write_spec _ _ _ _ Hwr HW) as [A1 A2].
  pose proof (proj2 (bo_names _ _ _ _ _ HB)) as Hnm. rewrite Forall_forall in Hnm. split.
  - intros n deps q x Hn Hcfg. rewrite <- Em in Hn. apply elem_of_list_fmap in Hn as (c & -> & Hcc). destruct (Hc c Hcc) as (deps' & H1 & H2 & H3).
    assert (deps' = deps) as -> by congruence. change (slashed [out; ct_name c; q]) with (out ++ "/" ++ ct_name c ++ "/" ++ q)%string.
    rewrite (A1 c q Hcc). change (slashed [ct_name c; q]) with (ct_name c ++ "/" ++ q)%string.
    destruct (last_source (ct_paths c) _) as [s|] eqn:El.
    + apply last_source_in in El. apply H3 in El. split.
      * intros Hx. by exists s.
      * intros (src & Hp & Hx). by rewrite (bo_places _ _ _ _ _ HB _ _ _ _ _ H1 H2 El Hp).
    + split; [done|]. intros (src & Hp & Hx). apply H3 in Hp. by destruct (proj1 (last_source_none _ _) El src).
  - intros p Hp. apply A2. intros c Hcc. destruct (Hc c Hcc) as (deps & H1 & _). rewrite join_plain; [by apply Hp|apply HB|by apply name_no_slash_end, Hnm].
Qed.
(* Writing succeeds exactly if every packaged source exists. *)
Theorem C58_writing_succeeds (source : string -> option tree) (cfg : gmap string (list string)) (root out : string) (names : list string)
    (cs : list contract) (d : disk) :
  build_ok source cfg root out names -> build_list source cfg root names = Ok cs ->
  (exists d', file_write out cs d = Ok d') <->
  forall n deps src dst, n ∈ names -> cfg !! n = Some deps -> packaged source root n deps src dst -> is_Some (d !! src).
Proof.
  intros HB E. destruct (build_ok_facts _ _ _ _ _ _ HB E) as (Hwr & Em & Hc). rewrite file_write_ok by done. split.
  - intros H n deps src dst Hn Hcfg Hp. rewrite <- Em in Hn. apply elem_of_list_fmap in Hn as (c & -> & Hcc). destruct (Hc c Hcc) as (deps' & H1 & H2 & H3).
    assert (deps' = deps) as -> by congruence. apply (H c src dst Hcc). by apply H3.
  - intros H c src dst Hcc Hst. destruct (Hc c Hcc) as (deps & H1 & H2 & H3). apply (H _ _ _ dst H1 H2). by apply H3.
Qed.
(* ZipWriter makes the same packages: extracting its archive gives the files FileWriter writes. *)
Theorem C58_archive_has_the_same_files (source : string -> option tree) (cfg : gmap string (list string)) (root out : string) (names : list string)
    (cs : list contract) (d d0 : disk) :
  build_ok source cfg root out names -> build_list source cfg root names = Ok cs ->
  ((exists es, zip_write cs d = Ok es) <-> exists d', file_write out cs d = Ok d') /\
  forall es d', zip_write cs d = Ok es -> file_write out cs d = Ok d' ->
    forall n q, n ∈ names -> zip_extract out es d0 !! slashed [out; n; q] = d' !! slashed [out; n; q].
Proof.
  intros HB E. destruct (build_ok_facts _ _ _ _ _ _ HB E) as (Hwr & Em & Hc).
  assert (Hall : forall s t, (s, t) ∈ flat_map ct_paths cs <-> exists c, c ∈ cs /\ (s, t) ∈ ct_paths c).
  { intros s t. rewrite elem_of_list_In, in_flat_map. split; intros (c & H1 & H2); exists c; by rewrite ?elem_of_list_In in *. }
  assert (Hst : forall s t, (s, t) ∈ flat_map ct_paths cs -> starts_slash t = false).
  { intros s t (c & Hcc & Hp)%Hall. destruct (wr_inside _ _ Hwr c s t Hcc Hp) as [q ->]. by apply name_start, (wr_name _ _ Hwr). }
  split.
  - rewrite file_write_ok by done. unfold zip_write. rewrite zip_entries_ok. split.
    + intros H c s t Hcc Hp. apply (H s t). apply Hall. by exists c.
    + intros H s t (c & Hcc & Hp)%Hall. by eapply H.
  - intros es d' Hz Hw n q Hn. destruct (file_write_spec _ _ _ _ Hwr Hw) as [A1 _]. apply zip_entries_spec in Hz.
    rewrite <- Em in Hn. apply elem_of_list_fmap in Hn as (c & -> & Hcc).
    change (slashed [out; ct_name c; q]) with (out ++ "/" ++ ct_name c ++ "/" ++ q)%string. rewrite (A1 c q Hcc).
    rewrite (extract_spec out _ _ d d0 (wr_out _ _ Hwr) Hst Hz) by by apply name_start, (wr_name _ _ Hwr).
    destruct (last_source (ct_paths c) _) as [s|] eqn:El.
    + apply last_source_in in El as Hp. destruct (last_source (flat_map ct_paths cs) _) as [s'|] eqn:El'.
      * apply last_source_in in El'. apply Hall in El' as (c' & Hcc' & Hp'). assert (c' = c) as ->.
        { destruct (wr_inside _ _ Hwr c' _ _ Hcc' Hp') as [q' Eq]. apply cut_unique in Eq as [En _]; [|by apply (wr_name _ _ Hwr)|by apply (wr_name _ _ Hwr)].
          clear -Hcc Hcc' En Hwr. pose proof (wr_names _ _ Hwr) as HN. apply elem_of_list_lookup in Hcc as [i Hi]. apply elem_of_list_lookup in Hcc' as [j Hj].
          assert (i = j) as ->; [|congruence]. eapply NoDup_lookup; [done|..]; rewrite list_lookup_fmap; [by rewrite Hi|by rewrite Hj, En]. }
        destruct (Hc c Hcc) as (deps & H1 & H2 & H3). apply H3 in Hp, Hp'. by rewrite (bo_places _ _ _ _ _ HB _ _ _ _ _ H1 H2 Hp Hp').
      * exfalso. apply (proj1 (last_source_none _ _) El' s). apply Hall. by exists c.
    + destruct (last_source (flat_map ct_paths cs) _) as [s'|] eqn:El'; [|done]. exfalso.
      apply last_source_in in El'. apply Hall in El' as (c' & Hcc' & Hp'). assert (c' = c) as ->.
      { destruct (wr_inside _ _ Hwr c' _ _ Hcc' Hp') as [q' Eq]. apply cut_unique in Eq as [En _]; [|by apply (wr_name _ _ Hwr)|by apply (wr_name _ _ Hwr)].
        clear -Hcc Hcc' En Hwr. pose proof (wr_names _ _ Hwr) as HN. apply elem_of_list_lookup in Hcc as [i Hi]. apply elem_of_list_lookup in Hcc' as [j Hj].
        assert (i = j) as ->; [|congruence]. eapply NoDup_lookup; [done|..]; rewrite list_lookup_fmap; [by rewrite Hi|by rewrite Hj, En]. }
      by apply (proj1 (last_source_none _ _) El s').
Qed.

(* When do two sources compete for one place?  Not if the only package.json of the contract is the one at its top and
   the declared dependencies are listed once and are none of name/..., package.json and NOTICE (but for the last). *)
Lemma C58_no_two_sources source root name deps t : is_name name -> source name = Some t -> tree_ok t ->
  (forall ds, has_file t ds "package.json" -> ds = []) ->
  NoDup deps -> (forall d, d ∈ deps -> d <> "package.json" /\ String.prefix (name ++ "/")%string d = false) ->
  forall src src' dst, packaged source root name deps src dst -> packaged source root name deps src' dst -> src = src'.
Proof.
  intros Hn Hs Hok Hj HN Hd.
  assert (Htail : forall a b, slashed [name; a] = slashed [name; b] -> a = b) by (intros a b E; apply sapp_inj in E; by injection E).
  assert (Hown : forall ds f x, slashed (name :: name :: ds ++ [f]) = slashed [name; x] -> String.prefix (name ++ "/")%string x = true).
  { intros ds f x E. rewrite !slashed_cons in E. apply sapp_inj in E. injection E as E. apply prefix_spec.
    exists (slashed (ds ++ [f])). change (slashed [x]) with x in E. rewrite <- E. destruct (ds ++ [f]) as [|y l] eqn:El; [by apply app_nil in El as [_ ?]|].
    rewrite slashed_cons. by rewrite sapp_assoc. }
  assert (Hnj : forall s, s = "package.json" \/ s = "NOTICE" -> String.prefix (name ++ "/")%string s = false).
  { intros s Hs'. destruct (String.prefix _ s) eqn:E; [|done]. apply prefix_spec in E as [r E]. exfalso.
    assert (contains "/" s = true) as Hc by (apply contains_spec; exists name, r; by rewrite E, sapp_assoc). by destruct Hs' as [-> | ->]. }
  assert (Hdn : forall i d, deps !! i = Some d -> (d <> "NOTICE" \/ S i <> length deps) -> last deps = Some "NOTICE" -> d <> "NOTICE").
  { intros i d Hi [?|Ho] Hl; [done|]. intros ->. apply last_lookup in Hl || rewrite last_lookup in Hl. assert (i = Nat.pred (length deps)) as -> by (eapply NoDup_lookup; done).
    apply lookup_lt_Some in Hi. lia. }
  intros src src' dst H H'. inversion H as [t1 ds f E1 F1 K1 J1|t1 ds E1 F1 K1|i d Hi Ho|Hl]; subst; inversion H' as [t2 ds' f' E2 F2 K2 J2 X1 X2|t2 ds' E2 F2 K2 X1 X2|i' d' Hi' Ho' X1 X2|Hl' X1 X2]; subst.
  - rewrite !slashed_cons in X2. apply sapp_inj in X2. injection X2 as X2. by rewrite !slashed_cons, X2.
  - symmetry in X2. apply Hown in X2. rewrite Hnj in X2; [done|by left].
  - symmetry in X2. apply Hown in X2. destruct (Hd d') as [_ Hx]; [by eapply elem_of_list_lookup_2|]. congruence.
  - symmetry in X2. apply Hown in X2. rewrite Hnj in X2; [done|by right].
  - apply Hown in X2. rewrite Hnj in X2; [done|by left].
  - simplify_eq. apply Hj in F1 as ->. by apply Hj in F2 as ->.
  - apply Htail in X2. subst d'. destruct (Hd "package.json") as [? _]; [by eapply elem_of_list_lookup_2|done].
  - by apply Htail in X2.
  - apply Hown in X2. destruct (Hd d) as [_ Hx]; [by eapply elem_of_list_lookup_2|]. congruence.
  - apply Htail in X2. subst d. destruct (Hd "package.json") as [? _]; [by eapply elem_of_list_lookup_2|done].
  - apply Htail in X2. by subst.
  - apply Htail in X2. subst d. by destruct (Hdn i "NOTICE" Hi Ho Hl').
  - apply Hown in X2. rewrite Hnj in X2; [done|by right].
  - by apply Htail in X2.
  - apply Htail in X2. subst d'. by destruct (Hdn i' "NOTICE" Hi' Ho' Hl).
  - done.
Qed.
(* a directory with a test, caches, and (against expectation) a file below tests *)
Example C58_tree : tree :=
  Tree ["__init__.py"; "score_registry.py"; "package.json"]
       [("tests", Tree ["__init__.py"; "test_registry.py"] [("data", Tree ["input.json"] [])]); ("__pycache__", Tree ["score_registry.pyc"] [])].
Example C58_source (n : string) : option tree := if decide (n = "score_registry") then Some C58_tree else None.
Example C58_case : exists c, build C58_source dex_config (map fst dex_config_list) "contracts" ["score_registry"] = Ok [c] /\
  ct_name c = "score_registry" /\
  ct_paths c = [("contracts/score_registry/__init__.py", "score_registry/score_registry/__init__.py");
    ("contracts/score_registry/score_registry.py", "score_registry/score_registry/score_registry.py");
    ("contracts/score_registry/package.json", "score_registry/package.json");
    ("contracts/score_registry/tests/data/input.json", "score_registry/score_registry/tests/data/input.json");
    ("NOTICE", "score_registry/NOTICE");
    ("contracts/interfaces/__init__.py", "score_registry/interfaces/__init__.py");
    ("contracts/interfaces/abc_score_registry.py", "score_registry/interfaces/abc_score_registry.py");
    ("contracts/interfaces/abc_owned.py", "score_registry/interfaces/abc_owned.py");
    ("contracts/utility/__init__.py", "score_registry/utility/__init__.py");
    ("contracts/utility/owned.py", "score_registry/utility/owned.py");
    ("contracts/utility/utils.py", "score_registry/utility/utils.py");
    ("contracts/utility/proxy_score.py", "score_registry/utility/proxy_score.py")].
Proof. eexists. split; [by vm_compute|]. split; [done|]. by vm_compute. Qed.
(* the textual renaming: a file whose own path repeats the source root ends up elsewhere *)
Example C58_renaming_is_textual :
  own_files (fun _ => Some (Tree ["contracts.py"] [])) "contracts" "network" = [("contracts/network/contracts.py", "network/network/network.py")].
Proof. by vm_compute. Qed.
Example C58_case_files ds f : has_file C58_tree ds f ->
  (ds, f) ∈ [([], "__init__.py"); ([], "score_registry.py"); ([], "package.json"); (["tests"], "__init__.py"); (["tests"], "test_registry.py");
             (["tests"; "data"], "input.json"); (["__pycache__"], "score_registry.pyc")].
Proof.
  intros H. rewrite !elem_of_cons, elem_of_nil. inversion H; subst.
  - rewrite !elem_of_cons, elem_of_nil in *. intuition (subst; auto 12).
  - match goal with Hin : _ ∈ _ |- _ => rewrite !elem_of_cons, elem_of_nil in Hin end.
    match goal with Hin : _ \/ _ |- _ => destruct Hin as [[= -> ->]|[[= -> ->]|[]]] end.
    + match goal with Hf : has_file (Tree _ _) _ _ |- _ => inversion Hf; subst end.
      * rewrite !elem_of_cons, elem_of_nil in *. intuition (subst; auto 12).
      * match goal with Hin : _ ∈ _ |- _ => apply elem_of_list_singleton in Hin as [= -> ->] end.
        match goal with Hf : has_file (Tree _ _) _ _ |- _ => inversion Hf; subst end.
        -- match goal with Hin : _ ∈ _ |- _ => apply elem_of_list_singleton in Hin as -> end. auto 12.
        -- match goal with Hin : _ ∈ _ |- _ => by apply elem_of_nil in Hin end.
    + match goal with Hf : has_file (Tree _ _) _ _ |- _ => inversion Hf; subst end.
      * match goal with Hin : _ ∈ _ |- _ => apply elem_of_list_singleton in Hin as -> end. auto 12.
      * match goal with Hin : _ ∈ _ |- _ => by apply elem_of_nil in Hin end.
Qed.
Example C58_case_meets_the_hypotheses : build_ok C58_source dex_config "contracts" "build" ["score_registry"].
Proof.
  assert (Hok : tree_ok C58_tree).
  { unfold C58_tree. repeat (constructor || split); by vm_compute. }
  assert (Hname : is_name "score_registry") by (by split; vm_compute).
  assert (Hdeps : dex_config !! "score_registry" = Some ["interfaces/__init__.py"; "interfaces/abc_score_registry.py"; "interfaces/abc_owned.py";
      "utility/__init__.py"; "utility/owned.py"; "utility/utils.py"; "utility/proxy_score.py"; "NOTICE"]) by (by vm_compute).
  split.
  - by split; vm_compute.
  - by split; vm_compute.
  - split; [apply NoDup_singleton|by constructor].
  - intros n t ->%elem_of_list_singleton [= <-]. split; [done|]. intros ds f H. apply C58_case_files in H. rewrite !elem_of_cons, elem_of_nil in H.
    destruct H as [[= -> ->]|[[= -> ->]|[[= -> ->]|[[= -> ->]|[[= -> ->]|[[= -> ->]|[[= -> ->]|[]]]]]]]]; by vm_compute.
  - intros n ds H. apply elem_of_list_to_map_2 in H. assert (forallb (fun e : string * list string => forallb (fun d => negb (starts_slash d)) e.2) dex_config_list = true) as HF by (by vm_compute).
    rewrite forallb_forall in HF. apply elem_of_list_In in H. apply HF in H. cbn [snd] in H. rewrite forallb_forall in H. apply Forall_forall. intros d Hd.
    apply negb_true_iff, H. by apply elem_of_list_In.
  - intros n deps src src' dst ->%elem_of_list_singleton E. rewrite Hdeps in E. injection E as <-.
    eapply (C58_no_two_sources C58_source "contracts" "score_registry" _ C58_tree); [done|done|done|..].
    + intros ds H. apply C58_case_files in H. rewrite !elem_of_cons, elem_of_nil in H.
      by destruct H as [[= -> ?]|[[= -> ?]|[[= ->]|[[= -> ?]|[[= -> ?]|[[= -> ?]|[[= -> ?]|[]]]]]]]].
    + repeat (apply NoDup_cons; split; [rewrite ?elem_of_cons, elem_of_nil; intuition discriminate|]). apply NoDup_nil_2.
    + intros d Hd. rewrite !elem_of_cons, elem_of_nil in Hd. by destruct Hd as [->|[->|[->|[->|[->|[->|[->|[->|[]]]]]]]]].
  - intros n m deps src dst ->%elem_of_list_singleton ->%elem_of_list_singleton _ H. destruct (under _ src) eqn:E; [|done]. exfalso.
    apply under_spec in E as [q E]. destruct H; done.
Qed.

Print Assumptions C56_reads_the_last_write.
Print Assumptions C56_values_persist.
Print Assumptions C56_containers_cannot_be_replaced.
Print Assumptions C57_every_request_succeeds.
Print Assumptions C57_same_class_same_proxy.
Print Assumptions C57_one_function_per_abstract_method.
Print Assumptions C57_shared_methods_share_the_function.
Print Assumptions C57_failures_are_no_functions.
Print Assumptions C58_package_contents.
Print Assumptions C58_refusals.
Print Assumptions C58_files_written.
Print Assumptions C58_writing_succeeds.
Print Assumptions C58_archive_has_the_same_files.
