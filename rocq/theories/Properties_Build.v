(* C70-C72: packages are complete, interrupted builds are repaired by building again, and the command line tool. *)
From Coq Require Import String Ascii ZArith.
From stdpp Require Import base list strings gmap.
From Verif Require Import Res BuilderModel BuilderProofs PackageModel PackageProofs Properties_Tools.
Local Open Scope string_scope.
Local Open Scope list_scope.

(* ===================================================================================== C70 ==== *)
(* Whatever configured contract is built from wherever: every module that is loaded when the package is loaded - the main
   module, what it imports, and so on, with the packages these are in - is in the package, at the place where the import
   looks for it, and is the repository's module of that name; so is the package.json. *)
Theorem C70_packages_are_complete (source : string -> option tree) (root : string) (contracts : list string) (cs : list contract) :
  let names := match contracts with [] => map fst dex_config_list | _ => contracts end in
  plain_dir root -> contains "__pycache__" root = false ->
  (forall n, n ∈ names -> exists t, source n = Some t /\ tree_ok t /\ root_unique root n t /\
     has_file t [] "__init__.py" /\ has_file t [] (String.append n ".py") /\ has_file t [] "package.json") ->
  build source dex_config (map fst dex_config_list) root contracts = Ok cs ->
  forall c, c ∈ cs ->
    (slashed [root; ct_name c; "package.json"], slashed [ct_name c; "package.json"]) ∈ ct_paths c /\
    forall m, loaded (ct_name c) m -> (slashed (root :: file_of m), slashed (ct_name c :: file_of m)) ∈ ct_paths c.
Proof.
  intros names Hr Hpc Ht HB c Hc. unfold build in HB. fold names in HB.
  assert (forall n, n ∈ names -> is_Some (dex_config !! n)) as Hcfg.
  { intros n Hn. assert (exists cs, build_list source dex_config root names = Ok cs) as HB' by (by exists cs).
    apply build_list_ok in HB'. rewrite Forall_forall in HB'. destruct (HB' n Hn) as (d & ds & ->). by eexists. }
  assert (forall n, n ∈ names -> is_name n /\ contains "__pycache__" n = false /\ n <> "tests") as Hnames.
  { intros n Hn. destruct (Hcfg n Hn) as [ds Hds]. apply dex_config_in in Hds.
    assert (forallb (fun e : string * list string => negb (bool_decide (e.1 = "")) && negb (contains "/" e.1) && negb (contains "__pycache__" e.1) && negb (bool_decide (e.1 = "tests"))) dex_config_list = true) as HF by (by vm_compute).
    rewrite forallb_forall in HF. apply elem_of_list_In, HF in Hds. cbn [fst] in Hds. apply andb_prop in Hds as [[[A B]%andb_prop C]%andb_prop D].
    apply negb_true_iff, bool_decide_eq_false in A, D. apply negb_true_iff in B, C. done. }
  assert (Forall2 (fun n c => ct_name c = n /\ exists deps, dex_config !! n = Some deps /\ forall src dst, (src, dst) ∈ ct_paths c <-> packaged source root n deps src dst) names cs) as HF.
  { apply build_list_spec; [done|apply Forall_forall; intros n Hn; by apply Hnames| |..|done].
    - intros n t Hn Hs. destruct (Ht n Hn) as (t' & E & H1 & H2 & _). by simplify_eq.
    - intros n ds H. apply dex_config_in in H. assert (forallb (fun e : string * list string => forallb (fun d => negb (starts_slash d)) e.2) dex_config_list = true) as HF by (by vm_compute).
      rewrite forallb_forall in HF. apply elem_of_list_In in H. apply HF in H. cbn [snd] in H. rewrite forallb_forall in H. apply Forall_forall. intros d Hd.
      apply negb_true_iff, H. by apply elem_of_list_In. }
  apply elem_of_list_lookup in Hc as [i Hi]. destruct (Forall2_lookup_r _ _ _ _ _ HF Hi) as (n & Hn & <- & deps & H2 & H3).
  apply elem_of_list_lookup_2 in Hn. destruct (Ht _ Hn) as (t & Hs & _ & _ & F1 & F2 & F3). destruct (Hnames _ Hn) as (_ & N1 & N2). split.
  - apply H3. apply (pk_json source root (ct_name c) deps t []); [done|done|]. split; [cbn; congruence|]. by repeat constructor.
  - intros m Hm. apply H3. by eapply loaded_packaged.
Qed.
(* the repository's converter: fourteen modules are loaded besides the packages *)
Example C70_loaded : forall m, m ∈ [["converter"]; ["formula"]; ["formula"; "fixed_map_formula"]; ["interfaces"; "abc_owned"]; ["utility"; "token_holder"]] -> loaded "converter" m.
Proof.
  assert (H0 := ld_main "converter"). assert (forall m i, loaded "converter" m -> mem m [resolve m i] = false -> existsb (fun j => bool_decide (j = i)) (imports m) = true -> loaded "converter" (resolve m i)) as HI.
  { intros m i Hm _ Hi. apply ld_import; [done|]. apply existsb_exists in Hi as (j & Hj & E). apply bool_decide_eq_true in E as ->. by apply elem_of_list_In. }
  assert (H1 := HI _ (2%nat, ["formula"]) H0 eq_refl eq_refl). assert (H2 := HI _ (1%nat, ["fixed_map_formula"]) H1 eq_refl eq_refl).
  assert (H3 := HI _ (2%nat, ["utility"; "flexible_token_controller"]) H0 eq_refl eq_refl). assert (H4 := HI _ (1%nat, ["token_holder"]) H3 eq_refl eq_refl).
  assert (H5 := HI _ (1%nat, ["owned"]) H4 eq_refl eq_refl). assert (H6 := HI _ (2%nat, ["interfaces"; "abc_owned"]) H5 eq_refl eq_refl).
  intros m Hm. rewrite !elem_of_cons, elem_of_nil in Hm. destruct Hm as [->|[->|[->|[->|[->|[]]]]]]; [|done..]. by apply (ld_parent "converter" ["converter"] "converter").
Qed.
Definition dex_tree (n : string) : tree := Tree ["__init__.py"; String.append n ".py"; "package.json"] [("tests", Tree ["__init__.py"] [])].
(* the whole repository, built from its own directory *)
Example C70_case : exists cs, build (fun n => Some (dex_tree n)) dex_config (map fst dex_config_list) "contracts" [] = Ok cs /\ length cs = 6%nat /\
  forall n, n ∈ map fst dex_config_list -> tree_ok (dex_tree n) /\ has_file (dex_tree n) [] "__init__.py" /\ has_file (dex_tree n) [] (String.append n ".py") /\
    has_file (dex_tree n) [] "package.json" /\ contains "contracts" n = false.
Proof.
  eexists. split; [vm_compute; reflexivity|]. split; [done|]. intros n Hn.
  assert (is_name (String.append n ".py") /\ contains "contracts" n = false) as [Hp Hc].
  { assert (forallb (fun n => negb (bool_decide (String.append n ".py" = "")) && negb (contains "/" (String.append n ".py")) && negb (contains "contracts" n)) (map fst dex_config_list) = true) as HF by (by vm_compute).
    rewrite forallb_forall in HF. apply elem_of_list_In, HF in Hn. apply andb_prop in Hn as [[A B]%andb_prop C]. apply negb_true_iff, bool_decide_eq_false in A. apply negb_true_iff in B, C. done. }
  split; [|split; [|split; [|split]]]; [|by constructor; set_solver..|done].
  assert (is_name "__init__.py") as Hi by (by split; vm_compute).
  constructor.
  - apply Forall_cons; split; [done|]. apply Forall_cons; split; [done|]. apply Forall_cons; split; [by split; vm_compute|done].
  - apply Forall_cons; split; [|done]. split; [by split; vm_compute|]. constructor; [|done]. by apply Forall_cons.
Qed.

(* ===================================================================================== C71 ==== *)
(* Wherever a build is stopped (by an error, by killing it, by a crash, in the middle of a file): files outside the package
   directories are untouched; in these lie only files that were there before or belong to the packages; and building again
   gives exactly the disk that the build would have given if it had not been stopped. *)
Theorem C71_interrupted_builds (source : string -> option tree) (cfg : gmap string (list string)) (root out : string) (names : list string)
    (cs : list contract) (d d' : disk) :
  build_ok source cfg root out names -> build_list source cfg root names = Ok cs -> interrupted out cs d d' ->
  (forall p, (forall n, n ∈ names -> under (slashed [out; n]) p = false) -> d' !! p = d !! p) /\
  (forall p x, d' !! p = Some x -> d !! p = Some x \/
     exists n deps src q, n ∈ names /\ cfg !! n = Some deps /\ packaged source root n deps src (slashed [n; q]) /\ p = slashed [out; n; q]) /\
  (forall d2, file_write out cs d' = Ok d2 <-> file_write out cs d = Ok d2).
Proof.
  intros HB E H. destruct (build_ok_facts _ _ _ _ _ _ HB E) as (W & Em & Hc). destruct (interrupted_frame _ _ _ _ W H) as [A B].
  split; [|split; [|by apply interrupted_again]].
  - intros p Hp. apply A. intros c Hcc. rewrite join_plain; [|apply W|apply name_no_slash_end, (wr_name _ _ W c Hcc)]. apply (Hp (ct_name c)).
    rewrite <- Em. by apply elem_of_list_fmap_1.
  - intros p x Hx. apply B in Hx as [Hx|(c & s & t & Hcc & Hst & ->)]; [by left|]. right. destruct (Hc c Hcc) as (deps & H1 & H2 & H3).
    destruct (wr_inside _ _ W c s t Hcc Hst) as [q ->]. exists (ct_name c), deps, s, q. split; [done|]. split; [done|]. split; [by apply H3|].
    apply inside_join; [apply W|by apply (wr_name _ _ W)].
Qed.
(* a build stopped in the middle of copying a file: the registry's package has lost the old file and has a torn one *)
Example C71_case : exists c, build_list C58_source dex_config "contracts" ["score_registry"] = Ok [c] /\
  let d : disk := {["build/score_registry/old" := "o"; "contracts/score_registry/__init__.py" := "a"; "build/x" := "y"]} in
  interrupted "build" [c] d (<["build/score_registry/score_registry/__init__.py" := "torn"]> (rmtree "build/score_registry" d)).
Proof. eexists. split; [vm_compute; reflexivity|]. intros d. apply in_copying. apply hc_torn. Qed.

(* ===================================================================================== C72 ==== *)
(* the command line tool build.py.  A contract name that is not configured: nothing at all is changed, even if other names
   are right; *)
Theorem C72_wrong_names_change_nothing (source : string -> option tree) (here : string) (args : list string) (d : disk) :
  head args <> Some "clean" -> (exists n, n ∈ args /\ dex_config !! n = None) ->
  main source dex_config (map fst dex_config_list) here args d = Ok (WrongContractName, d).
Proof.
  intros Hc (n & Hn & Hcfg).
  assert (main source dex_config (map fst dex_config_list) here args d =
    match build source dex_config (map fst dex_config_list) (path_join here "contracts") args with
    | Err e => if String.eqb e "KeyError" then Ok (WrongContractName, d) else Err e
    | Ok cs => match file_write (path_join here "build") cs d with Ok d' => Ok (BuiltContracts, d') | Err e => Err e end
    end) as ->.
  { unfold main. by rewrite bool_decide_eq_false_2. }
  assert (forall l, n ∈ l -> build_list source dex_config (path_join here "contracts") l = Err "KeyError") as HB.
  { induction l as [|m l IH]; intros H; [by apply elem_of_nil in H|]. cbn [build_list]. unfold build_one.
    destruct (dex_config !! m) as [deps|] eqn:Em; [|done]. apply elem_of_cons in H as [->|H]; [congruence|].
    apply dex_config_in in Em. assert (last deps <> None) as Hl.
    { assert (forallb (fun e : string * list string => match last e.2 with Some _ => true | None => false end) dex_config_list = true) as HF by (by vm_compute).
      rewrite forallb_forall in HF. apply elem_of_list_In, HF in Em. cbn [snd] in Em. by destruct (last deps). }
    destruct (last deps); [|done]. by rewrite (IH H). }
  unfold build. destruct args as [|a args]; [by apply elem_of_nil in Hn|]. by rewrite (HB _ Hn).
Qed.
(* clean removes the build directory and nothing else, and says whether there was something to remove; further arguments do
   not matter *)
Theorem C72_clean (source : string -> option tree) (cfg : gmap string (list string)) (all_names : list string) (here : string) (rest : list string) (d : disk) :
  exists msg d', main source cfg all_names here ("clean" :: rest) d = Ok (msg, d') /\
    (forall p, d' !! p = if under (path_join here "build") p then None else d !! p) /\
    (msg = RemovedBuildDirectory <-> d' <> d) /\ (msg = NoBuildDirectory <-> d' = d).
Proof.
  unfold main, clean. rewrite bool_decide_eq_true_2 by done. eexists _, _. split; [reflexivity|]. split; [apply rmtree_lookup|].
  destruct (existsb (under (path_join here "build")) (map fst (map_to_list d))) eqn:E.
  - assert (rmtree (path_join here "build") d <> d) as Hne; [|by split].
    apply existsb_exists in E as (p & Hp & Hu). intros Eq. apply (f_equal (fun m : disk => m !! p)) in Eq. rewrite rmtree_lookup, Hu in Eq.
    apply in_map_iff in Hp as ([p' x] & <- & Hin). apply elem_of_list_In, elem_of_map_to_list in Hin. cbn [fst] in Eq. congruence.
  - assert (rmtree (path_join here "build") d = d) as Heq.
    { apply map_eq. intros p. rewrite rmtree_lookup. destruct (under _ p) eqn:Hu; [|done]. destruct (d !! p) as [x|] eqn:Ex; [|done].
      assert (existsb (under (path_join here "build")) (map fst (map_to_list d)) = true) as E'; [|congruence].
      apply existsb_exists. exists p. split; [|done]. apply in_map_iff. exists (p, x). split; [done|]. by apply elem_of_list_In, elem_of_map_to_list. }
    by split.
Qed.
(* otherwise exactly the named contracts are built, all of them if none is named: into build/ and from contracts/ in the
   directory of the script (C58 tells what that leaves on disk) *)
Theorem C72_builds (source : string -> option tree) (here : string) (args : list string) (d : disk) :
  head args <> Some "clean" -> (forall n, n ∈ args -> is_Some (dex_config !! n)) ->
  exists cs, build source dex_config (map fst dex_config_list) (path_join here "contracts") args = Ok cs /\
    map ct_name cs = (match args with [] => map fst dex_config_list | _ => args end) /\
    main source dex_config (map fst dex_config_list) here args d =
      match file_write (path_join here "build") cs d with Ok d' => Ok (BuiltContracts, d') | Err e => Err e end.
Proof.
  intros Hc Hcfg. set (names := match args with [] => map fst dex_config_list | _ => args end).
  assert (Forall (fun n => exists d ds, dex_config !! n = Some (d :: ds)) names) as Hn.
  { apply Forall_forall. intros n Hn. assert (is_Some (dex_config !! n)) as [deps Hd].
    { unfold names in Hn. destruct args as [|a args]; [|by apply Hcfg]. apply elem_of_list_fmap in Hn as ([n' ds] & -> & Hn). exists ds.
      apply elem_of_list_to_map_1; [|done]. vm_compute. repeat (apply NoDup_cons; split; [rewrite ?elem_of_cons, elem_of_nil; intuition discriminate|]). apply NoDup_nil_2. }
    apply dex_config_in in Hd as Hin.
    assert (forallb (fun e : string * list string => match e.2 with [] => false | _ => true end) dex_config_list = true) as HF by (by vm_compute).
    rewrite forallb_forall in HF. apply elem_of_list_In, HF in Hin. cbn [snd] in Hin. destruct deps as [|x xs]; [done|]. by exists x, xs. }
  apply (build_list_ok dex_config source (path_join here "contracts")) in Hn as [cs Hcs]. exists cs. split; [exact Hcs|]. split.
  - clear -Hcs. revert cs Hcs. generalize names as l. induction l as [|n l IH]; intros cs H; [by injection H as <-|].
    cbn [build_list] in H. unfold build_one in H. destruct (dex_config !! n) as [deps|]; [|done]. destruct (last deps); [|done].
    destruct (build_list _ _ _ l) as [cs'|] eqn:E; [|done]. injection H as <-. cbn. by rewrite (IH cs').
  - assert (main source dex_config (map fst dex_config_list) here args d =
      match build source dex_config (map fst dex_config_list) (path_join here "contracts") args with
      | Err e => if String.eqb e "KeyError" then Ok (WrongContractName, d) else Err e
      | Ok cs => match file_write (path_join here "build") cs d with Ok d' => Ok (BuiltContracts, d') | Err e => Err e end
      end) as ->.
    { unfold main. by rewrite bool_decide_eq_false_2. }
    unfold build. fold names. by rewrite Hcs.
Qed.
(* One expects that the tool can be started from any directory, since it computes its paths from its own place.  But the NOTICE
   is looked for in the current directory: if there is none, every build of anything but irc_token fails. *)
Theorem C72_other_directories_refuted (source : string -> option tree) (here : string) (args : list string) (d : disk) :
  let names := match args with [] => map fst dex_config_list | _ => args end in
  build_ok source dex_config (path_join here "contracts") (path_join here "build") names ->
  head args <> Some "clean" -> (forall n, n ∈ args -> is_Some (dex_config !! n)) ->
  (exists n, n ∈ names /\ n <> "irc_token") -> d !! "NOTICE" = None ->
  exists e, main source dex_config (map fst dex_config_list) here args d = Err e.
Proof.
  intros names HB Hc Hcfg (n & Hn & Hne) Hd. destruct (C72_builds source here args d Hc Hcfg) as (cs & Hcs & Hnm & ->).
  destruct (file_write _ cs d) as [d'|e] eqn:E; [|by eexists]. exfalso.
  assert (exists d', file_write (path_join here "build") cs d = Ok d') as HW by (by exists d').
  pose proof (proj1 (C58_writing_succeeds source dex_config _ _ names cs d HB Hcs) HW) as Hw.
  assert (exists deps, dex_config !! n = Some deps /\ last deps = Some "NOTICE") as (deps & H1 & H2).
  { assert (Hin : is_Some (dex_config !! n)).
    { unfold names in Hn. destruct args as [|a args]; [|by apply Hcfg]. apply elem_of_list_fmap in Hn as ([n' ds] & -> & Hn). exists ds.
      apply elem_of_list_to_map_1; [|done]. vm_compute. repeat (apply NoDup_cons; split; [rewrite ?elem_of_cons, elem_of_nil; intuition discriminate|]). apply NoDup_nil_2. }
    destruct Hin as [deps Hds]. exists deps. split; [done|]. apply dex_config_in in Hds.
    assert (forallb (fun e : string * list string => bool_decide (e.1 = "irc_token") || bool_decide (last e.2 = Some "NOTICE")) dex_config_list = true) as HF by (by vm_compute).
    rewrite forallb_forall in HF. apply elem_of_list_In, HF in Hds. cbn [fst snd] in Hds. apply orb_prop in Hds as [Hds|Hds]; apply bool_decide_eq_true in Hds; [done|done]. }
  destruct (Hw n deps "NOTICE" (slashed [n; "NOTICE"]) Hn H1 (pk_notice _ _ _ _ H2)) as [x Hx]. congruence.
Qed.
(* started as icon-dex/build.py in the directory above the repository *)
Example C72_case : build_ok C58_source dex_config (path_join "icon-dex" "contracts") (path_join "icon-dex" "build") ["score_registry"].
Proof.
  change (path_join "icon-dex" "contracts") with "icon-dex/contracts". change (path_join "icon-dex" "build") with "icon-dex/build".
  destruct C58_case_meets_the_hypotheses as [_ _ H3 H4 H5 H6 _]. split.
  - by split; vm_compute.
  - by split; vm_compute.
  - done.
  - intros n t ->%elem_of_list_singleton [= <-]. split; [by apply (H4 "score_registry"); [apply elem_of_list_singleton|]|]. intros ds f H. apply C58_case_files in H. rewrite !elem_of_cons, elem_of_nil in H.
    destruct H as [[= -> ->]|[[= -> ->]|[[= -> ->]|[[= -> ->]|[[= -> ->]|[[= -> ->]|[[= -> ->]|[]]]]]]]]; by vm_compute.
  - done.
  - intros n deps src src' dst ->%elem_of_list_singleton E. assert (dex_config !! "score_registry" = Some ["interfaces/__init__.py"; "interfaces/abc_score_registry.py"; "interfaces/abc_owned.py";
      "utility/__init__.py"; "utility/owned.py"; "utility/utils.py"; "utility/proxy_score.py"; "NOTICE"]) as Hdeps by (by vm_compute). rewrite Hdeps in E. injection E as <-.
    assert (is_name "score_registry") as Hname by (by split; vm_compute).
    eapply (C58_no_two_sources C58_source _ "score_registry" _ C58_tree); [done|done|by apply (H4 "score_registry"); [apply elem_of_list_singleton|]|..].
    + intros ds H. apply C58_case_files in H. rewrite !elem_of_cons, elem_of_nil in H.
      by destruct H as [[= -> ?]|[[= -> ?]|[[= ->]|[[= -> ?]|[[= -> ?]|[[= -> ?]|[[= -> ?]|[]]]]]]]].
    + repeat (apply NoDup_cons; split; [rewrite ?elem_of_cons, elem_of_nil; intuition discriminate|]). apply NoDup_nil_2.
    + intros d Hd. rewrite !elem_of_cons, elem_of_nil in Hd. by destruct Hd as [->|[->|[->|[->|[->|[->|[->|[->|[]]]]]]]]].
  - intros n m deps src dst ->%elem_of_list_singleton ->%elem_of_list_singleton _ H. destruct (under _ src) eqn:E; [|done]. exfalso.
    apply under_spec in E as [q E]. destruct H; done.
Qed.

Print Assumptions C70_packages_are_complete.
Print Assumptions C71_interrupted_builds.
Print Assumptions C72_wrong_names_change_nothing.
Print Assumptions C72_clean.
Print Assumptions C72_builds.
Print Assumptions C72_other_directories_refuted.
