(* Proofs for C70-C72. *)
From Coq Require Import String Ascii ZArith.
From stdpp Require Import base list strings gmap.
From Verif Require Import Res BuilderModel BuilderProofs PackageModel.
Local Open Scope string_scope.
Local Open Scope list_scope.

(* ------------------------------------------------------------------ interrupted builds ---- *)
Lemma under_join out n q : plain_dir out -> is_name n -> under (path_join out n) (path_join out (n ++ "/" ++ q)%string) = true.
Proof.
  intros Ho Hn. rewrite inside_join, join_plain by (done || by apply name_no_slash_end). apply under_spec. exists q. by rewrite !sapp_assoc.
Qed.
Lemma copy_frame out n l d d' : copy_all out l d = Ok d' -> plain_dir out -> is_name n ->
  (forall s t, (s, t) ∈ l -> exists q, t = n ++ "/" ++ q)%string ->
  forall p, under (path_join out n) p = false -> d' !! p = d !! p.
Proof.
  intros H Ho Hn Hl p Hp. revert d H. induction l as [|[s t] l IH]; intros d H; [by injection H as ->|].
  cbn [copy_all] in H. destruct (copy s (path_join out t) d) as [d1|] eqn:E; [|done].
  rewrite (IH ltac:(intros; eapply Hl; by right) d1 H). unfold copy in E. destruct (d !! s) eqn:Es; [|done].
  case_bool_decide; [done|]. injection E as <-. destruct (Hl s t ltac:(by left)) as [q ->].
  rewrite lookup_insert_ne; [done|]. intros <-. by rewrite under_join in Hp.
Qed.
Lemma half_frame out n l d d' : half_copied out l d d' -> plain_dir out -> is_name n ->
  (forall s t, (s, t) ∈ l -> exists q, t = n ++ "/" ++ q)%string ->
  (forall p, under (path_join out n) p = false -> d' !! p = d !! p) /\
  (forall p x, d' !! p = Some x -> d !! p = Some x \/ exists s t, (s, t) ∈ l /\ p = path_join out t).
Proof.
  intros H Ho Hn. induction H as [l d|s t l d x|s t l d d1 d2 E H IH]; intros Hl.
  - split; [done|]. intros p x ?. by left.
  - destruct (Hl s t ltac:(by left)) as [q ->]. split.
    + intros p Hp. rewrite lookup_insert_ne; [done|]. intros <-. by rewrite under_join in Hp.
    + intros p y Hy. destruct (decide (path_join out (n ++ "/" ++ q)%string = p)) as [<-|Hne]; [right; exists s; eexists; split; [by left|done]|].
      rewrite lookup_insert_ne in Hy by done. by left.
  - destruct IH as [IH1 IH2]; [intros; eapply Hl; by right|]. unfold copy in E. destruct (d !! s) eqn:Es; [|done]. case_bool_decide; [done|]. injection E as <-.
    destruct (Hl s t ltac:(by left)) as [q ->]. split.
    + intros p Hp. rewrite IH1 by done. rewrite lookup_insert_ne; [done|]. intros <-. by rewrite under_join in Hp.
    + intros p y Hy. apply IH2 in Hy as [Hy|(s' & t' & Hin & ->)]; [|right; exists s', t'; split; [by right|done]].
      destruct (decide (path_join out (n ++ "/" ++ q)%string = p)) as [<-|Hne]; [right; exists s; eexists; split; [by left|done]|].
      rewrite lookup_insert_ne in Hy by done. by left.
Qed.
Lemma interrupted_frame out cs d d' : writable out cs -> interrupted out cs d d' ->
  (forall p, (forall c, c ∈ cs -> under (path_join out (ct_name c)) p = false) -> d' !! p = d !! p) /\
  (forall p x, d' !! p = Some x -> d !! p = Some x \/ exists c s t, c ∈ cs /\ (s, t) ∈ ct_paths c /\ p = path_join out t).
Proof.
  intros W H. induction H as [cs d|c cs d d' H1 H2|c cs d d' H|c cs d d1 d' E H IH].
  - split; [done|]. intros; by left.
  - split; [|by auto]. intros p Hp. apply H1, Hp. by left.
  - destruct (half_frame out (ct_name c) _ _ _ H (wr_out _ _ W)) as [A B]; [eapply (wr_name _ _ W); by left|intros; eapply (wr_inside _ _ W); [by left|done]|]. split.
    + intros p Hp. rewrite A by (apply Hp; by left). rewrite rmtree_lookup. by rewrite (Hp c) by left.
    + intros p x Hx. apply B in Hx as [Hx|(s & t & Hin & ->)].
      * rewrite rmtree_lookup in Hx. destruct (under _ p); [done|by left].
      * right. exists c, s, t. split; [by left|done].
  - destruct (IH (writable_cons _ _ _ W)) as [A B].
    assert (is_name (ct_name c)) as Hn by (eapply (wr_name _ _ W); by left).
    assert (forall p, under (path_join out (ct_name c)) p = false -> d1 !! p = d !! p) as Hf.
    { intros p Hp. rewrite (copy_frame out (ct_name c) _ _ _ E (wr_out _ _ W) Hn) by (done || (intros; eapply (wr_inside _ _ W); [by left|done])).
      rewrite rmtree_lookup. by rewrite Hp. }
    split.
    + intros p Hp. rewrite A by (intros; apply Hp; by right). apply Hf, Hp. by left.
    + intros p x Hx. apply B in Hx as [Hx|(c' & s & t & Hc & Hin & ->)]; [|right; exists c', s, t; split; [by right|done]].
      assert (forall s t, (s, t) ∈ ct_paths c -> forall s' t', (s', t') ∈ ct_paths c -> path_join out t <> s') as Hsep.
      { intros s t Hst s' t' Hst' Ej. destruct (wr_inside _ _ W c s t ltac:(by left) Hst) as [q ->].
        pose proof (wr_outside _ _ W c c s' t' ltac:(by left) Hst' ltac:(by left)) as Hu. rewrite <- Ej, under_join in Hu; [done|apply W|done]. }
      rewrite (copy_all_spec _ _ _ _ E Hsep) in Hx. destruct (last_source _ p) as [s|] eqn:El.
      * apply last_source_in in El. apply elem_of_list_fmap in El as ([s0 t0] & [= -> ->] & Hin). right. exists c, s0, t0. split; [by left|done].
      * rewrite rmtree_lookup in Hx. destruct (under _ p); [done|by left].
Qed.
(* what is outside the packages decides what a build writes *)
Lemma rewrite_agrees out cs d d' : writable out cs ->
  (forall p, (forall c, c ∈ cs -> under (path_join out (ct_name c)) p = false) -> d' !! p = d !! p) ->
  forall d2, file_write out cs d = Ok d2 -> file_write out cs d' = Ok d2.
Proof.
  intros W Hf d2 H.
  assert (forall c s t, c ∈ cs -> (s, t) ∈ ct_paths c -> d' !! s = d !! s) as Hs.
  { intros c s t Hc Hst. apply Hf. intros c' Hc'. exact (wr_outside _ _ W c c' s t Hc Hst Hc'). }
  assert (exists d3, file_write out cs d' = Ok d3) as [d3 H3].
  { apply file_write_ok; [done|]. intros c s t Hc Hst. rewrite (Hs c s t Hc Hst).
    revert c s t Hc Hst. apply (proj1 (file_write_ok out cs d W)). by exists d2. }
  rewrite H3. f_equal. apply map_eq. intros p.
  destruct (file_write_spec _ _ _ _ W H) as [A1 A2]. destruct (file_write_spec _ _ _ _ W H3) as [B1 B2].
  destruct (decide (Exists (fun c => under (path_join out (ct_name c)) p = true) cs)) as [He|He].
  - apply Exists_exists in He as (c & Hc & Hu). pose proof (wr_name _ _ W c Hc) as Hn.
    rewrite join_plain in Hu by (apply W || by apply name_no_slash_end). apply under_spec in Hu as [q ->]. rewrite !sapp_assoc.
    rewrite A1, B1 by done. destruct (last_source _ _) as [s|] eqn:El; [|done]. apply last_source_in in El. by eapply Hs.
  - assert (forall c, c ∈ cs -> under (path_join out (ct_name c)) p = false) as Hp.
    { intros c Hc. destruct (under _ p) eqn:Eu; [|done]. destruct He. apply Exists_exists. by exists c. }
    rewrite A2, B2 by done. by apply Hf.
Qed.
Lemma interrupted_again out cs d d' : writable out cs -> interrupted out cs d d' ->
  forall d2, file_write out cs d' = Ok d2 <-> file_write out cs d = Ok d2.
Proof.
  intros W H d2. destruct (interrupted_frame _ _ _ _ W H) as [A _]. split; apply rewrite_agrees; try done. intros p Hp. by rewrite A.
Qed.

(* -------------------------------------------------------------------------------- imports ---- *)
Fixpoint parents (m : modname) : list modname := match m with [] => [] | x :: m' => match m' with [] => [] | _ => [x] :: map (cons x) (parents m') end end.
Definition step_modules (l : list modname) : list modname := remove_dups (l ++ flat_map (fun m => parents m ++ map (resolve m) (imports m)) l).
Definition closure (name : string) : list modname := Nat.iter 8 step_modules [[name; name]].
Definition mem (m : modname) (l : list modname) : bool := existsb (fun x => bool_decide (x = m)) l.
Lemma mem_spec m l : mem m l = true <-> m ∈ l.
Proof.
  unfold mem. rewrite existsb_exists. split.
  - intros (x & H & E). apply bool_decide_eq_true in E as ->. by apply elem_of_list_In.
  - intros H. exists m. split; [by apply elem_of_list_In|]. by apply bool_decide_eq_true.
Qed.
Definition closed (name : string) (deps : list string) : bool :=
  let l := closure name in
  mem [name; name] l &&
  forallb (fun m => forallb (fun x => mem x l) (parents m) && forallb (fun i => mem (resolve m i) l) (imports m) &&
                    (bool_decide (m = [name]) || bool_decide (m = [name; name]) ||
                     bool_decide (slashed (file_of m) ∈ deps) && negb (bool_decide (slashed (file_of m) = "NOTICE")))) l.
Lemma parents_spec m x y : x <> [] -> m = x ++ [y] -> x ∈ parents m.
Proof.
  revert m. induction x as [|a x IH]; intros m Hx ->; [done|]. destruct x as [|b x]; [by left|].
  change (a :: b :: x) with (a :: (b :: x)). cbn [app parents]. right. apply elem_of_list_fmap. exists (b :: x). split; [done|]. by apply (IH (b :: x ++ [y])).
Qed.
Lemma closed_loaded name deps : closed name deps = true -> forall m, loaded name m ->
  m = [name] \/ m = [name; name] \/ slashed (file_of m) ∈ deps /\ slashed (file_of m) <> "NOTICE".
Proof.
  unfold closed. set (l := closure name). cbv zeta. intros [H0 H]%andb_prop. rewrite forallb_forall in H. apply mem_spec in H0.
  assert (forall m, loaded name m -> m ∈ l) as Hl.
  { intros m Hm. induction Hm as [|m x Hm IH Hne|m i Hm IH Hi]; [done|..].
    - apply elem_of_list_In, H in IH. apply andb_prop in IH as [[IH _]%andb_prop _]. rewrite forallb_forall in IH. apply mem_spec, IH, elem_of_list_In.
      by eapply parents_spec.
    - apply elem_of_list_In, H in IH. apply andb_prop in IH as [[_ IH]%andb_prop _]. rewrite forallb_forall in IH. by apply mem_spec, IH, elem_of_list_In. }
  intros m Hm. apply Hl, elem_of_list_In, H in Hm. apply andb_prop in Hm as [_ Hm]. apply orb_prop in Hm as [[Hm|Hm]%orb_prop|[H1 H2]%andb_prop].
  - left. by apply bool_decide_eq_true in Hm.
  - right; left. by apply bool_decide_eq_true in Hm.
  - right; right. apply bool_decide_eq_true in H1. apply negb_true_iff, bool_decide_eq_false in H2. done.
Qed.
Lemma dex_closed : forallb (fun e => closed e.1 e.2) dex_config_list = true.
Proof. by vm_compute. Qed.
Lemma dex_config_in n deps : dex_config !! n = Some deps -> (n, deps) ∈ dex_config_list.
Proof. apply elem_of_list_to_map_2. Qed.
Lemma loaded_packaged source root n deps t m : dex_config !! n = Some deps -> source n = Some t -> contains "__pycache__" root = false ->
  has_file t [] "__init__.py" -> has_file t [] (String.append n ".py") -> loaded n m ->
  packaged source root n deps (slashed (root :: file_of m)) (slashed (n :: file_of m)).
Proof.
  intros Hc Hs Hroot H1 H2 Hm. apply dex_config_in in Hc as Hin.
  assert (contains "__pycache__" n = false /\ n <> "tests" /\ String.append n ".py" <> "package.json") as (Hn1 & Hn2 & Hn3).
  { assert (forallb (fun e : string * list string => negb (contains "__pycache__" e.1) && negb (bool_decide (e.1 = "tests")) && negb (bool_decide (String.append e.1 ".py" = "package.json"))) dex_config_list = true) as HF by (by vm_compute).
    rewrite forallb_forall in HF. apply elem_of_list_In, HF in Hin. cbn [fst] in Hin. apply andb_prop in Hin as [[A B]%andb_prop C].
    apply negb_true_iff in A. apply negb_true_iff, bool_decide_eq_false in B, C. done. }
  assert (kept root n []) as Hk. { split; [cbn; congruence|]. by repeat constructor. }
  assert (closed n deps = true) as Hcl.
  { pose proof dex_closed as HF. rewrite forallb_forall in HF. by apply elem_of_list_In, HF in Hin. }
  destruct (closed_loaded n deps Hcl m Hm) as [->|[->|[Hd Hnn]]].
  - change (file_of [n]) with [n; "__init__.py"]. by apply (pk_own source root n deps t [] "__init__.py").
  - change (file_of [n; n]) with [n; String.append n ".py"]. by apply (pk_own source root n deps t [] (String.append n ".py")).
  - apply elem_of_list_lookup in Hd as [i Hi].
    assert (forall a l, l <> [] -> slashed (a :: l) = slashed [a; slashed l]) as Esl.
    { intros a [|b l] ?; [done|]. by rewrite !slashed_cons. }
    assert (file_of m <> []) as Hf. { unfold file_of. destruct (is_package m); intros E; by apply app_nil in E as [_ ?]. }
    rewrite !(Esl _ (file_of m)) by done. apply (pk_dep source root n deps i _ Hi). by left.
Qed.
