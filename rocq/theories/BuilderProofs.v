(* Proofs about the package builder. *)
From Coq Require Import String Ascii ZArith.
From stdpp Require Import base list strings gmap.
From Verif Require Import Res BuilderModel.
Local Open Scope string_scope.

(* ---- strings ---- *)
Local Arguments String.append : simpl nomatch.
Lemma sapp_cons c (a b : string) : String c a ++ b = String c (a ++ b).
Proof. done. Qed.
Lemma sapp_e (b : string) : "" ++ b = b.
Proof. done. Qed.
Lemma sapp_assoc (a b c : string) : (a ++ b) ++ c = a ++ (b ++ c).
Proof. induction a as [|x a IH]; [done|]. exact (f_equal (String x) IH). Qed.
Lemma sapp_nil (a : string) : a ++ "" = a.
Proof. induction a as [|x a IH]; [done|]. exact (f_equal (String x) IH). Qed.
Lemma sapp_inj (a b c : string) : a ++ b = a ++ c -> b = c.
Proof. induction a as [|x a IH]; [done|]. cbn. intros [=]. by apply IH. Qed.
Lemma prefix_spec a : forall s, String.prefix a s = true <-> exists t, s = a ++ t.
Proof.
  induction a as [|x a IH]; intros s.
  - cbn. split; [intros _; by exists s|by destruct s].
  - destruct s as [|y s]; cbn; [split; [done|by intros [? ?]]|]. destruct (ascii_dec x y) as [->|Hne].
    + rewrite IH. split.
      * intros [t ->]. by exists t.
      * intros [t E]. injection E as ->. by exists t.
    + split; [done|]. intros [t E]. by injection E as -> _.
Qed.
Lemma prefix_self a t : String.prefix a (a ++ t) = true.
Proof. apply prefix_spec. by exists t. Qed.
Lemma contains_spec sub : forall s, contains sub s = true <-> exists a b, s = a ++ sub ++ b.
Proof.
  induction s as [|x s IH]; cbn [contains].
  - rewrite orb_false_r, prefix_spec. split.
    + intros [t E]. by exists "", t.
    + intros ([|] & b & E); [|done]. by exists b.
  - rewrite orb_true_iff, prefix_spec, IH. split.
    + intros [[t E]|(a & b & ->)]; [by exists "", t|]. by exists (String x a), b.
    + intros ([|y a] & b & E); [left; by exists b|]. cbn in E. injection E as -> ->. right. by exists a, b.
Qed.
Lemma contains_false sub s : contains sub s = false <-> forall a b, s <> a ++ sub ++ b.
Proof.
  split.
  - intros H a b E. assert (contains sub s = true) by (apply contains_spec; by eexists _, _). congruence.
  - intros H. destruct (contains sub s) eqn:E; [|done]. apply contains_spec in E as (a & b & E). by destruct (H a b).
Qed.
Lemma slash_front m : contains "/" (String "/" m) = true.
Proof. by destruct m. Qed.
(* a text cut at a slash it does not contain *)
Lemma cut_unique n m a b : contains "/" n = false -> contains "/" m = false -> n ++ "/" ++ a = m ++ "/" ++ b -> n = m /\ a = b.
Proof.
  revert m. induction n as [|x n IH]; intros [|y m] Hn Hm E; cbn in E.
  - injection E as ->. done.
  - injection E as <- ->. by rewrite slash_front in Hm.
  - injection E as -> <-. by rewrite slash_front in Hn.
  - injection E as -> E. assert (contains "/" n = false) as Hn' by (cbn [contains] in Hn; by apply orb_false_iff in Hn as [_ ?]).
    assert (contains "/" m = false) as Hm' by (cbn [contains] in Hm; by apply orb_false_iff in Hm as [_ ?]).
    destruct (IH m Hn' Hm' E) as [-> ->]. done.
Qed.
(* a text without a slash occurs in a/b exactly if it occurs in a or in b *)
Lemma contains_slash sub a b : contains "/" sub = false -> sub <> "" -> contains sub (a ++ "/" ++ b) = contains sub a || contains sub b.
Proof.
  intros Hs Hne. apply eq_bool_prop_intro. rewrite !Is_true_true, orb_true_iff, !contains_spec. split.
  - intros (u & v & E). revert a E. induction u as [|x u IH]; intros a E; cbn [append] in E.
    + clear Hne. left. cut (exists b0, a = sub ++ b0); [intros [b0 ->]; by exists "", b0|].
      revert a E. induction sub as [|y sub IHs]; intros a E; [by exists a|].
      destruct a as [|z a]; cbn in E.
      * injection E as <- _. by rewrite slash_front in Hs.
      * injection E as -> E. assert (contains "/" sub = false) as Hs' by (cbn [contains] in Hs; by apply orb_false_iff in Hs as [_ ?]).
        destruct (IHs Hs' a E) as [b0 ->]. by exists b0.
    + destruct a as [|z a]; cbn in E.
      * injection E as <- E. right. by exists u, v.
      * injection E as <- E. destruct (IH a E) as [(p & q & ->)|?]; [left|by right]. by exists (String z p), q.
  - intros [(p & q & ->)|(p & q & ->)].
    + exists p, (q ++ "/" ++ b). by rewrite !sapp_assoc.
    + exists (a ++ "/" ++ p), q. by rewrite !sapp_assoc.
Qed.
(* replace: nothing to replace; a single occurrence in front *)
Lemma replace_none old new : forall s, contains old s = false -> replace_from old new 0 s = s.
Proof.
  induction s as [|c s IH]; [done|]. intros H. cbn [contains] in H. apply orb_false_iff in H as [H1 H2]. cbn [replace_from]. rewrite H1. by rewrite IH.
Qed.
Lemma replace_skip old new : forall a t, replace_from old new (String.length a) (a ++ t) = replace_from old new 0 t.
Proof. induction a as [|c a IH]; intros t; [done|]. cbn. apply IH. Qed.
Lemma replace_front old new t : old <> "" -> contains old t = false -> replace (old ++ t) old new = new ++ t.
Proof.
  intros Hne H. destruct old as [|c o]; [done|]. unfold replace. change (String c o ++ t) with (String c (o ++ t)). cbn [replace_from].
  change (String c (o ++ t)) with (String c o ++ t). rewrite prefix_self. f_equal. cbn [String.length]. rewrite Nat.sub_succ, Nat.sub_0_r, replace_skip. by apply replace_none.
Qed.

(* ---- paths ---- *)
Definition plain_dir (root : string) : Prop := root <> "" /\ ends_slash root = false.
Lemma ends_slash_app a c : ends_slash (a ++ String c "") = Ascii.eqb c "/".
Proof. induction a as [|x a IH]; [done|]. cbn [append ends_slash]. rewrite IH. by destruct a. Qed.
Lemma name_no_slash_end n : is_name n -> ends_slash n = false /\ starts_slash n = false.
Proof.
  intros [Hne Hc]. split.
  - destruct (ends_slash n) eqn:E; [|done]. exfalso. assert (exists m, n = m ++ "/") as [m ->].
    { clear Hc Hne. induction n as [|x n IH]; [done|]. cbn in E. destruct n as [|y n].
      - apply Ascii.eqb_eq in E as ->. by exists "".
      - destruct (IH E) as [m ->]. by exists (String x m). }
    rewrite contains_false in Hc. apply (Hc m ""). done.
  - destruct n as [|x n]; [done|]. cbn. destruct (Ascii.eqb x "/") eqn:E; [|done]. apply Ascii.eqb_eq in E as ->.
    rewrite contains_false in Hc. by destruct (Hc "" n).
Qed.
Lemma plain_name n : is_name n -> plain_dir n.
Proof. intros H. destruct (name_no_slash_end n H). by destruct H. Qed.
Lemma join_plain a b : plain_dir a -> starts_slash b = false -> path_join a b = a ++ "/" ++ b.
Proof. intros [H1 H2] H3. unfold path_join. rewrite H3, H2. by rewrite bool_decide_false. Qed.
Lemma ends_slash_join a n : n <> "" -> ends_slash (a ++ n) = ends_slash n.
Proof.
  intros Hn. induction a as [|x a IH]; [done|]. cbn [append ends_slash]. rewrite IH. destruct (a ++ n) eqn:E; [|done].
  destruct a; [|done]. cbn in E. done.
Qed.
Lemma plain_join a n : plain_dir a -> plain_dir n -> plain_dir (a ++ "/" ++ n).
Proof.
  intros [H1 H2] [H3 H4]. split; [by destruct a|]. rewrite ends_slash_join by done. change ("/" ++ n) with (String "/" "" ++ n). by rewrite ends_slash_join.
Qed.
Lemma slashed_cons a b l : slashed (a :: b :: l) = a ++ "/" ++ slashed (b :: l).
Proof. done. Qed.
Lemma slashed_app l1 : forall l2, l1 <> [] -> l2 <> [] -> slashed (l1 ++ l2)%list = slashed l1 ++ "/" ++ slashed l2.
Proof.
  induction l1 as [|a l1 IH]; intros l2 H1 H2; [done|]. destruct l1 as [|b l1].
  - destruct l2; [done|]. done.
  - cbn [app]. rewrite !slashed_cons. change (b :: l1 ++ l2)%list with ((b :: l1) ++ l2)%list. rewrite IH by done. by rewrite !sapp_assoc.
Qed.
Lemma slashed_plain l : l <> [] -> Forall is_name l -> plain_dir (slashed l).
Proof.
  induction l as [|a l IH]; [done|]. intros _ H. apply Forall_cons in H as [Ha Hl]. destruct l as [|b l]; [by apply plain_name|].
  rewrite slashed_cons. apply plain_join; [by apply plain_name|]. by apply IH.
Qed.
Lemma basename_no_slash s : contains "/" s = false -> basename s = s.
Proof. intros H. destruct s as [|c s]; [done|]. cbn [basename]. by rewrite H. Qed.
Lemma basename_last a n : contains "/" n = false -> basename (a ++ "/" ++ n) = n.
Proof.
  intros Hn. assert (forall a, basename (a ++ "/" ++ n) = n) as H; [|done]. clear a. induction a as [|x a IH].
  - cbn [append]. cbn [basename]. assert (contains "/" (String "/" n) = true) as ->; [|by apply basename_no_slash].
    apply contains_spec. by exists "", n.
  - cbn [append basename]. assert (contains "/" (String x (a ++ String "/" n)) = true) as ->; [|apply IH].
    apply contains_spec. by exists (String x a), n.
Qed.
Lemma basename_slashed l n : is_name n -> basename (slashed (l ++ [n])%list) = n.
Proof.
  intros [_ Hn]. destruct l as [|a l]; [cbn; by apply basename_no_slash|]. rewrite slashed_app by done. by apply basename_last.
Qed.
Lemma contains_slashed sub l : contains "/" sub = false -> sub <> "" ->
  contains sub (slashed l) = existsb (contains sub) l.
Proof.
  intros Hs Hne. induction l as [|a l IH].
  - cbn. destruct sub; [done|]. done.
  - destruct l as [|b l]; [cbn; by rewrite orb_false_r|]. rewrite slashed_cons, contains_slash by done. rewrite IH. done.
Qed.

(* ---- os.walk ---- *)
Fixpoint tree_ind' (P : tree -> Prop) (H : forall files dirs, Forall (fun nt => P nt.2) dirs -> P (Tree files dirs)) (t : tree) : P t :=
  match t with
  | Tree files dirs => H files dirs ((fix go (l : list (string * tree)) : Forall (fun nt => P nt.2) l :=
        match l with [] => Forall_nil_2 _ | nt :: l' => Forall_cons_2 _ nt l' (tree_ind' P H nt.2) (go l') end) dirs)
  end.
Lemma walk_spec t : tree_ok t -> forall dir p f, plain_dir dir ->
  (exists files, (p, files) ∈ walk dir t /\ f ∈ files) <-> exists ds, has_file t ds f /\ Forall is_name ds /\ p = slashed (dir :: ds).
Proof.
  induction t as [files dirs IH] using tree_ind'. intros Hok dir p f Hdir. inversion Hok as [? ? Hf Hd]. subst. cbn [walk].
  rewrite Forall_forall in IH. rewrite Forall_forall in Hd. split.
  - intros (fs & Hin & Hff). apply elem_of_cons in Hin as [[= -> ->]|Hin].
    + exists []. split; [by constructor|]. done.
    + apply elem_of_list_In, in_flat_map in Hin as ([n t] & Hnt & Hin). apply elem_of_list_In in Hnt, Hin. cbn in Hin.
      destruct (Hd _ Hnt) as [Hn Hok']. cbn in Hn, Hok'. rewrite (join_plain dir n) in Hin by (done || by apply name_no_slash_end).
      destruct (proj1 (IH _ Hnt Hok' _ p f (plain_join _ _ Hdir (plain_name _ Hn)))) as (ds & H1 & H2 & H3); [by exists fs|].
      exists (n :: ds). split; [by econstructor|]. split; [by constructor|]. rewrite H3. destruct ds; cbn; by rewrite ?sapp_assoc.
  - intros (ds & H & Hns & ->). inversion H; subst.
    + exists files. split; [by constructor|done].
    + match goal with Hx : (?n, ?t) ∈ dirs, Hy : has_file ?t ?ds0 f |- _ => rename Hx into Hnt, Hy into Hsub; rename ds0 into ds1 end.
      destruct (Hd _ Hnt) as [Hn Hok']. cbn in Hn, Hok'. apply Forall_cons in Hns as [_ Hns].
      destruct (proj2 (IH _ Hnt Hok' _ (slashed ((dir ++ "/" ++ n) :: ds1)) f (plain_join _ _ Hdir (plain_name _ Hn)))) as (fs & Hin & Hff).
      { by exists ds1. }
      exists fs. split; [|done]. apply elem_of_cons. right. apply elem_of_list_In, in_flat_map. exists (n, t). split; [by apply elem_of_list_In|].
      cbn [fst snd]. rewrite (join_plain dir n) by (done || by apply name_no_slash_end). apply elem_of_list_In.
      assert (slashed (dir :: n :: ds1) = slashed ((dir ++ "/" ++ n) :: ds1)) as -> by (destruct ds1; cbn; by rewrite ?sapp_assoc). done.
Qed.
Lemma has_file_names t ds f : tree_ok t -> has_file t ds f -> is_name f /\ Forall is_name ds.
Proof.
  intros Hok H. induction H as [files dirs f Hf|files dirs n t ds f Hnt H IH]; inversion Hok as [? ? H1 H2]; subst; rewrite Forall_forall in H1; rewrite Forall_forall in H2.
  - split; [by apply H1|done].
  - destruct (H2 _ Hnt) as [? Ht]. destruct (IH Ht). split; [done|]. by constructor.
Qed.

(* ---- the path list of a contract ---- *)
(* the renaming is by text: the source root must not occur again in the rest of a path *)
Definition root_unique (root name : string) (t : tree) : Prop :=
  forall ds f, has_file t ds f -> contains root (slashed ("" :: name :: ds ++ [f])%list) = false.
Lemma own_files_spec source root name : is_name name -> plain_dir root ->
  (forall t, source name = Some t -> tree_ok t /\ root_unique root name t) ->
  forall src dst, (src, dst) ∈ own_files source root name <->
    exists t ds f, source name = Some t /\ has_file t ds f /\ kept root name ds /\ src = slashed (root :: name :: ds ++ [f])%list /\
      dst = if decide (f = "package.json") then slashed [name; "package.json"] else slashed (name :: name :: ds ++ [f])%list.
Proof.
  intros Hn Hr Hsrc src dst. unfold own_files. destruct (source name) as [t|]; [|cbn; rewrite elem_of_nil; split; [done|by intros (? & ? & ? & ? & _)]].
  destruct (Hsrc t eq_refl) as [Hok Hu]. destruct (name_no_slash_end _ Hn) as [Hn1 Hn2].
  assert (Hrn : plain_dir (root ++ "/" ++ name)) by (apply plain_join; [done|by apply plain_name]).
  assert (Hlast : forall ds, Forall is_name ds -> basename (slashed ((root ++ "/" ++ name) :: ds)) = "tests" <-> last (name :: ds) = Some "tests").
  { intros ds Hds. assert (slashed ((root ++ "/" ++ name) :: ds) = slashed (root :: name :: ds)) as -> by (destruct ds; cbn; by rewrite ?sapp_assoc).
    assert (exists l z, (name :: ds)%list = (l ++ [z])%list /\ is_name z) as (l & z & E & Hz).
    { assert (Forall is_name (name :: ds)) as Hall by by constructor. destruct (exists_last (l := name :: ds) ltac:(done)) as (l & z & E).
      exists l, z. split; [done|]. rewrite E in Hall. apply Forall_app in Hall as [_ Hz]. by apply Forall_cons in Hz as [? _]. }
    rewrite E. change (root :: (l ++ [z])%list) with ((root :: l) ++ [z])%list. rewrite basename_slashed by done. rewrite last_snoc. split; [by intros ->|by intros [=]]. }
  assert (Hpy : forall ds, contains "__pycache__" (slashed ((root ++ "/" ++ name) :: ds)) = false <-> Forall (fun c => contains "__pycache__" c = false) (root :: name :: ds)).
  { intros ds. assert (slashed ((root ++ "/" ++ name) :: ds) = slashed (root :: name :: ds)) as -> by (destruct ds; cbn; by rewrite ?sapp_assoc).
    rewrite contains_slashed by done. rewrite Forall_forall. split.
    - intros H c Hc. destruct (contains "__pycache__" c) eqn:E; [|done]. assert (existsb (contains "__pycache__") (root :: name :: ds) = true); [|congruence].
      apply existsb_exists. exists c. split; [by apply elem_of_list_In|done].
    - intros H. destruct (existsb _ _) eqn:E; [|done]. apply existsb_exists in E as (c & Hc & E). rewrite (H c) in E; [done|by apply elem_of_list_In]. }
  rewrite (join_plain root name) by done.
  assert (Hcur : forall ds f, is_name f -> Forall is_name ds -> path_join (slashed ((root ++ "/" ++ name) :: ds)) f = slashed (root :: name :: ds ++ [f])%list).
  { intros ds f Hf Hds. assert (slashed ((root ++ "/" ++ name) :: ds) = slashed (root :: name :: ds)) as E by (destruct ds; cbn; by rewrite ?sapp_assoc).
    rewrite join_plain; [|rewrite E|by apply name_no_slash_end].
    - rewrite E. change (root :: name :: ds ++ [f])%list with ((root :: name :: ds) ++ [f])%list. by rewrite slashed_app.
    - rewrite slashed_cons. apply plain_join; [done|]. apply slashed_plain; [done|]. by constructor. }
  assert (Hrep : forall ds f, has_file t ds f -> is_name f -> Forall is_name ds ->
    replace (slashed (root :: name :: ds ++ [f])%list) root name = slashed (name :: name :: ds ++ [f])%list).
  { intros ds f Hfile Hf Hds. rewrite !slashed_cons. pose proof (Hu ds f Hfile) as Hc. rewrite slashed_cons in Hc. cbn [append] in Hc.
    rewrite replace_front; [done|apply Hr|exact Hc]. }
  rewrite elem_of_list_In, in_flat_map. split.
  - intros ([p files] & Hp & Hin). apply elem_of_list_In in Hp. case_bool_decide as Ht; [done|].
    apply in_flat_map in Hin as (f & Hf & Hin). apply elem_of_list_In in Hf.
    destruct (proj1 (walk_spec t Hok _ p f Hrn)) as (ds & H1 & H2 & ->); [by exists files|].
    destruct (has_file_names _ _ _ Hok H1) as [Hnf _]. destruct (contains "__pycache__" (slashed _)) eqn:Ec; [done|].
    destruct Hin as [[= <- <-]|[]]. exists t, ds, f. split; [done|]. split; [done|]. split; [split; [by rewrite <- Hlast|by apply Hpy]|].
    rewrite Hcur by done. split; [done|]. rewrite Hrep by done. destruct (decide (f = "package.json")) as [->|Hne]; [|by rewrite bool_decide_false].
    rewrite bool_decide_true by done. rewrite join_plain; [done|by apply plain_name|done].
  - intros (t' & ds & f & [= <-] & H1 & [H2 H3] & -> & ->). destruct (has_file_names _ _ _ Hok H1) as [Hnf Hds].
    destruct (proj2 (walk_spec t Hok (root ++ "/" ++ name) (slashed ((root ++ "/" ++ name) :: ds)) f Hrn)) as (files & Hp & Hf); [by exists ds|].
    exists (slashed ((root ++ "/" ++ name) :: ds), files). split; [by apply elem_of_list_In, Hp|]. rewrite bool_decide_false by (rewrite Hlast; done).
    apply in_flat_map. exists f. split; [by apply elem_of_list_In|]. rewrite (proj2 (Hpy ds) H3). rewrite Hcur, Hrep by done. left. f_equal.
    case_bool_decide as Hj; destruct (decide (f = "package.json")); try done. subst f. rewrite join_plain; [done|by apply plain_name|done].
Qed.

Lemma build_one_spec cfg source root name deps c : is_name name -> plain_dir root ->
  (forall t, source name = Some t -> tree_ok t /\ root_unique root name t) ->
  cfg !! name = Some deps -> Forall (fun d => starts_slash d = false) deps ->
  build_one source cfg root name = Ok c ->
  ct_name c = name /\ forall src dst, (src, dst) ∈ ct_paths c <-> packaged source root name deps src dst.
Proof.
  intros Hn Hr Hsrc Hcfg Hdeps. unfold build_one. rewrite Hcfg. destruct (last deps) as [d|] eqn:El; [|done]. intros [= <-]. split; [done|]. cbn [ct_paths].
  apply last_Some in El as [ds ->]. apply Forall_app in Hdeps as [Hds Hd]. apply Forall_cons in Hd as [Hd _].
  assert (Hdep : forall l src dst, Forall (fun d => starts_slash d = false) l ->
    (src, dst) ∈ dependency_files root name l <-> exists x, x ∈ l /\ src = slashed [root; x] /\ dst = slashed [name; x]).
  { intros l src dst Hl. unfold dependency_files. rewrite elem_of_list_fmap. rewrite Forall_forall in Hl. split.
    - intros (x & [= -> ->] & Hx). exists x. split; [done|]. rewrite !join_plain by (done || by apply Hl || by apply plain_name). done.
    - intros (x & Hx & -> & ->). exists x. split; [|done]. rewrite !join_plain by (done || by apply Hl || by apply plain_name). done. }
  intros src dst. rewrite elem_of_app, own_files_spec by done.
  assert (Hown : (exists t ds0 f, source name = Some t /\ has_file t ds0 f /\ kept root name ds0 /\ src = slashed (root :: name :: ds0 ++ [f])%list /\
      dst = if decide (f = "package.json") then slashed [name; "package.json"] else slashed (name :: name :: ds0 ++ [f])%list) ->
      packaged source root name (ds ++ [d])%list src dst).
  { intros (t & ds0 & f & H1 & H2 & H3 & -> & ->). destruct (decide (f = "package.json")) as [->|]; by econstructor. }
  split.
  - intros [H|H]; [by apply Hown|]. case_bool_decide as HN.
    + subst d. rewrite removelast_last in H. apply elem_of_cons in H as [[= -> ->]|H].
      * rewrite join_plain by (done || by apply plain_name). apply pk_notice. by rewrite last_snoc.
      * apply Hdep in H as (x & Hx & -> & ->); [|done]. apply elem_of_list_lookup in Hx as [i Hi]. apply (pk_dep _ _ _ _ i).
        -- by apply lookup_app_l_Some.
        -- right. rewrite app_length. cbn. apply lookup_lt_Some in Hi. lia.
    + apply Hdep in H as (x & Hx & -> & ->); [|apply Forall_app; split; [done|by constructor]]. apply elem_of_list_lookup in Hx as [i Hi].
      apply (pk_dep _ _ _ _ i); [done|]. destruct (decide (x = "NOTICE")) as [->|]; [|by left]. right. intros E. rewrite app_length in E. cbn in E.
      rewrite lookup_app_r in Hi by lia. replace (i - length ds) with 0 in Hi by lia. cbn in Hi. congruence.
  - intros H. inversion H; subst.
    + left. eexists _, _, _. do 4 (split; [done|]). by rewrite decide_False.
    + left. eexists _, _, _. do 4 (split; [done|]). done.
    + right. match goal with Hi : (ds ++ [d])%list !! ?j = Some ?x, Ho : _ \/ _ |- _ => rename Hi into Hi', Ho into Ho', j into i0, x into x0 end.
      case_bool_decide as HN.
      * subst d. apply elem_of_cons. right. rewrite removelast_last. apply Hdep; [done|]. exists x0. split; [|done].
        rewrite app_length in Ho'. cbn in Ho'. apply lookup_app_Some in Hi' as [Hi'|[Hge Hi']]; [by eapply elem_of_list_lookup_2|].
        destruct (i0 - length ds) as [|k] eqn:E; [|done]. cbn in Hi'. injection Hi' as <-. destruct Ho' as [?|Ho']; [done|]. lia.
      * apply Hdep; [apply Forall_app; split; [done|by constructor]|]. exists x0. split; [by eapply elem_of_list_lookup_2|done].
    + right. match goal with Hl : last _ = _ |- _ => rewrite last_snoc in Hl; injection Hl as -> end. rewrite bool_decide_true by done.
      apply elem_of_cons. left. rewrite join_plain by (done || by apply plain_name). done.
Qed.
Lemma packaged_prefix source root name deps src dst : packaged source root name deps src dst -> exists q, dst = name ++ "/" ++ q.
Proof. intros []; by eexists. Qed.
Lemma build_list_spec cfg source root names cs : plain_dir root -> Forall is_name names ->
  (forall n t, n ∈ names -> source n = Some t -> tree_ok t /\ root_unique root n t) ->
  (forall n ds, cfg !! n = Some ds -> Forall (fun d => starts_slash d = false) ds) ->
  build_list source cfg root names = Ok cs ->
  Forall2 (fun n c => ct_name c = n /\ exists deps, cfg !! n = Some deps /\ forall src dst, (src, dst) ∈ ct_paths c <-> packaged source root n deps src dst) names cs.
Proof.
  intros Hr Hns Hsrc Hcfg. revert cs. induction names as [|n names IH]; intros cs H; cbn in H; [injection H as <-; by constructor|].
  apply Forall_cons in Hns as [Hn Hns]. destruct (build_one source cfg root n) as [c|] eqn:E1; [|done]. destruct (build_list source cfg root names) as [cs'|]; [|done].
  injection H as <-. constructor; [|apply IH; [done| |done]].
  - destruct (cfg !! n) as [deps|] eqn:Ec; [|unfold build_one in E1; by rewrite Ec in E1].
    destruct (build_one_spec cfg source root n deps c Hn Hr) as [H1 H2]; try done; [|by eapply Hcfg|].
    { intros t. apply Hsrc. by constructor. }
    split; [done|]. by exists deps.
  - intros m t Hm. apply Hsrc. by constructor.
Qed.
(* a build fails exactly for names without configuration or with an empty dependency list *)
Lemma build_list_ok cfg source root names :
  (exists cs, build_list source cfg root names = Ok cs) <-> Forall (fun n => exists d ds, cfg !! n = Some (d :: ds)) names.
Proof.
  induction names as [|n names IH]; cbn; [split; [done|by eexists]|]. rewrite Forall_cons, <- IH. unfold build_one.
  destruct (cfg !! n) as [deps|] eqn:E; [|split; [by intros [? ?]|by intros [(? & ? & ?) _]]].
  destruct deps as [|d ds]; [split; [by intros [? ?]|by intros [(? & ? & ?) _]]|].
  destruct (last (d :: ds)) as [z|] eqn:El; [|apply last_None in El; done].
  destruct (build_list source cfg root names) as [cs|]; split.
  - intros _. split; [by eexists _, _|by eexists].
  - intros _. by eexists.
  - by intros [? ?].
  - by intros [_ [? ?]].
Qed.

(* ---- writing ---- *)
Lemma under_spec dir p : under dir p = true <-> exists q, p = dir ++ "/" ++ q.
Proof. unfold under. rewrite prefix_spec. split; intros [q E]; exists q; by rewrite E, ?sapp_assoc. Qed.
(* under two different names below one directory *)
Lemma under_names out n m q : is_name n -> is_name m -> under (out ++ "/" ++ n) (out ++ "/" ++ m ++ "/" ++ q) = true -> n = m.
Proof.
  intros [_ Hn] [_ Hm] H. apply under_spec in H as [q' E]. rewrite !sapp_assoc in E. apply sapp_inj in E. injection E as E.
  by apply cut_unique in E as [<- _].
Qed.
(* the source of the last of the listed copies to [dst] *)
Fixpoint last_source (l : list (string * string)) (dst : string) : option string :=
  match l with
  | [] => None
  | (s, d) :: l' => match last_source l' dst with Some x => Some x | None => if decide (d = dst) then Some s else None end
  end.
Lemma last_source_in l dst s : last_source l dst = Some s -> (s, dst) ∈ l.
Proof.
  induction l as [|[s' d] l IH]; [done|]. cbn. destruct (last_source l dst) as [x|].
  - intros [= ->]. constructor. by apply IH.
  - case_decide; [|done]. subst. intros [= <-]. constructor.
Qed.
Lemma last_source_none l dst : last_source l dst = None <-> forall s, (s, dst) ∉ l.
Proof.
  induction l as [|[s' d] l IH]; cbn; [split; [by intros _ ? ?%elem_of_nil|done]|]. destruct (last_source l dst) as [x|].
  - split; [done|]. intros H. exfalso. assert (Some x = None) as E; [apply IH|done]. intros s Hs. apply (H s). by constructor.
  - case_decide as Hd.
    + split; [done|]. intros H. exfalso. apply (H s'). subst. constructor.
    + split; [|done]. intros _ s [[= -> ->]|Hs]%elem_of_cons; [done|]. by apply (proj1 IH eq_refl s).
Qed.
Lemma copy_all_spec out l : forall d d', copy_all out l d = Ok d' ->
  (forall s t, (s, t) ∈ l -> forall s' t', (s', t') ∈ l -> path_join out t <> s') ->
  forall p, d' !! p = match last_source (map (fun st => (st.1, path_join out st.2)) l) p with Some s => d !! s | None => d !! p end.
Proof.
  induction l as [|[s t] l IH]; intros d d' H Hno p; cbn in H; [by injection H as <-|].
  unfold copy in H. destruct (d !! s) as [x|] eqn:Es; [|done]. case_bool_decide as Hsd; [done|].
  assert (Hno' : forall s0 t0, (s0, t0) ∈ l -> forall s' t', (s', t') ∈ l -> path_join out t0 <> s').
  { intros s0 t0 H0 s' t' H'. eapply (Hno s0 t0); [by constructor|by constructor]. }
  rewrite (IH _ _ H Hno' p). cbn [map last_source fst snd]. destruct (last_source _ p) as [s0|] eqn:El.
  - apply last_source_in in El. apply elem_of_list_fmap in El as ([s1 t1] & [= -> ->] & H1). cbn [fst snd].
    rewrite lookup_insert_ne; [done|]. eapply (Hno s t); [constructor|by constructor].
  - case_decide as Hd.
    + subst p. rewrite lookup_insert. by rewrite Es.
    + by rewrite lookup_insert_ne.
Qed.
Lemma copy_all_ok out l : forall d,
  (forall s t, (s, t) ∈ l -> forall s' t', (s', t') ∈ l -> path_join out t <> s') ->
  (exists d', copy_all out l d = Ok d') <-> forall s t, (s, t) ∈ l -> is_Some (d !! s).
Proof.
  induction l as [|[s t] l IH]; intros d Hno; cbn; [split; [by intros _ ? ? ?%elem_of_nil|by eexists]|].
  assert (Hno' : forall s0 t0, (s0, t0) ∈ l -> forall s' t', (s', t') ∈ l -> path_join out t0 <> s').
  { intros s0 t0 H0 s' t' H'. eapply (Hno s0 t0); [by constructor|by constructor]. }
  unfold copy. destruct (d !! s) as [x|] eqn:Es.
  - rewrite bool_decide_false by (intros E; eapply (Hno s t ltac:(constructor) s t ltac:(constructor)); by rewrite E).
    rewrite IH by done. split.
    + intros H s' t' [[= -> ->]|H']%elem_of_cons; [by rewrite Es|]. pose proof (H s' t' H') as Hs.
      rewrite lookup_insert_ne in Hs; [done|]. eapply (Hno s t); [constructor|by constructor].
    + intros H s' t' H'. rewrite lookup_insert_ne; [apply (H s' t'); by constructor|]. eapply (Hno s t); [constructor|by constructor].
  - split; [by intros [? ?]|]. intros H. destruct (H s t) as [? E]; [constructor|]. congruence.
Qed.
Lemma rmtree_lookup dir (d : disk) p : rmtree dir d !! p = if under dir p then None else d !! p.
Proof.
  unfold rmtree. destruct (under dir p) eqn:E.
  - apply map_filter_lookup_None. right. intros x _. cbn [fst]. by rewrite E.
  - destruct (d !! p) as [x|] eqn:Ed.
    + apply map_filter_lookup_Some. done.
    + apply map_filter_lookup_None. by left.
Qed.

(* what FileWriter relies on: plain output directory, distinct contract names, destinations inside the contract's own
   directory, sources outside of all of them *)
Record writable (out : string) (cs : list contract) : Prop := {
  wr_out : plain_dir out;
  wr_names : NoDup (map ct_name cs);
  wr_name : forall c, c ∈ cs -> is_name (ct_name c);
  wr_inside : forall c src dst, c ∈ cs -> (src, dst) ∈ ct_paths c -> exists q, dst = ct_name c ++ "/" ++ q;
  wr_outside : forall c c' src dst, c ∈ cs -> (src, dst) ∈ ct_paths c -> c' ∈ cs -> under (path_join out (ct_name c')) src = false }.
Lemma writable_cons out c cs : writable out (c :: cs) -> writable out cs.
Proof.
  intros [H1 H2 H3 H4 H5]. split; [done| | | |].
  - cbn in H2. by apply NoDup_cons in H2 as [_ ?].
  - intros c0 H. apply H3. by constructor.
  - intros c0 src dst H. apply H4. by constructor.
  - intros c0 c' src dst Ha Hb Hc. eapply H5; [|done|]; by constructor.
Qed.
Lemma inside_join out c q : plain_dir out -> is_name c -> path_join out (c ++ "/" ++ q) = out ++ "/" ++ c ++ "/" ++ q.
Proof.
  intros Ho Hc. apply join_plain; [done|]. destruct (name_no_slash_end _ Hc) as [_ H]. destruct Hc as [Hne _]. by destruct c.
Qed.
Lemma last_source_map out l dst : (forall s t, (s, t) ∈ l -> starts_slash t = false) -> plain_dir out -> starts_slash dst = false ->
  last_source (map (fun st => (st.1, path_join out st.2)) l) (out ++ "/" ++ dst) = last_source l dst.
Proof.
  intros H Ho Hd. induction l as [|[s t] l IH]; [done|]. cbn [map last_source fst snd]. rewrite IH by (intros; eapply H; by constructor).
  destruct (last_source l dst); [done|]. rewrite join_plain by (done || by eapply H; constructor).
  destruct (decide (t = dst)) as [->|Hne]; [by rewrite decide_True|]. rewrite decide_False; [done|]. intros E. apply sapp_inj in E. by injection E.
Qed.
Lemma name_start n q : is_name n -> starts_slash (n ++ "/" ++ q) = false.
Proof. intros Hn. destruct (name_no_slash_end _ Hn) as [_ H]. destruct Hn as [? _]. by destruct n. Qed.
Lemma one_write out c d d' : writable out [c] -> copy_all out (ct_paths c) (rmtree (path_join out (ct_name c)) d) = Ok d' ->
  (forall q, d' !! (out ++ "/" ++ ct_name c ++ "/" ++ q) = match last_source (ct_paths c) (ct_name c ++ "/" ++ q) with Some s => d !! s | None => None end) /\
  (forall p, under (path_join out (ct_name c)) p = false -> d' !! p = d !! p).
Proof.
  intros HW H. assert (Hc : c ∈ [c]) by constructor. destruct HW as [Ho _ Hn Hi Hx]. specialize (Hn c Hc).
  destruct (name_no_slash_end _ Hn) as [_ Hns]. assert (Hj : path_join out (ct_name c) = out ++ "/" ++ ct_name c) by by apply join_plain.
  assert (Hin : forall s t, (s, t) ∈ ct_paths c -> under (path_join out (ct_name c)) (path_join out t) = true).
  { intros s t Hst. destruct (Hi c s t Hc Hst) as [q ->]. rewrite inside_join, Hj by done. apply under_spec. exists q. by rewrite !sapp_assoc. }
  assert (Hno : forall s t, (s, t) ∈ ct_paths c -> forall s' t', (s', t') ∈ ct_paths c -> path_join out t <> s').
  { intros s t Hst s' t' Hst' E. pose proof (Hin _ _ Hst) as H1. pose proof (Hx c c s' t' Hc Hst' Hc) as H2. rewrite E in H1. congruence. }
  pose proof (copy_all_spec _ _ _ _ H Hno) as HS. split.
  - intros q. rewrite HS, last_source_map; [|intros s t Hst; destruct (Hi c s t Hc Hst) as [q' ->]; by apply name_start|done|by apply name_start].
    destruct (last_source (ct_paths c) _) as [s|] eqn:El.
    + apply last_source_in in El. rewrite rmtree_lookup. by rewrite (Hx c c s _ Hc El Hc).
    + rewrite rmtree_lookup. assert (under (path_join out (ct_name c)) (out ++ "/" ++ ct_name c ++ "/" ++ q) = true) as ->; [|done].
      rewrite Hj. apply under_spec. exists q. by rewrite !sapp_assoc.
  - intros p Hp. rewrite HS. rewrite rmtree_lookup, Hp. destruct (last_source _ p) as [s|] eqn:El; [|done].
    apply last_source_in in El. apply elem_of_list_fmap in El as ([s0 t0] & [= -> ->] & H0). cbn in Hp. by rewrite (Hin _ _ H0) in Hp.
Qed.
Lemma file_write_spec out cs : forall d d', writable out cs -> file_write out cs d = Ok d' ->
  (forall c q, c ∈ cs -> d' !! (out ++ "/" ++ ct_name c ++ "/" ++ q) = match last_source (ct_paths c) (ct_name c ++ "/" ++ q) with Some s => d !! s | None => None end) /\
  (forall p, (forall c, c ∈ cs -> under (path_join out (ct_name c)) p = false) -> d' !! p = d !! p).
Proof.
  induction cs as [|c cs IH]; intros d d' HW H; cbn in H.
  { injection H as <-. split; [by intros ? ? ?%elem_of_nil|done]. }
  destruct (copy_all _ _ _) as [d1|] eqn:E; [|done].
  assert (HWc : writable out [c]).
  { destruct HW as [H1 H2 H3 H4 H5]. split; [done|by apply NoDup_singleton|..].
    - intros c0 ->%elem_of_list_singleton. apply H3. constructor.
    - intros c0 src dst ->%elem_of_list_singleton. apply H4. constructor.
    - intros c0 c' src dst ->%elem_of_list_singleton Hst ->%elem_of_list_singleton. eapply H5; [|done|]; constructor. }
  destruct (one_write _ _ _ _ HWc E) as [A1 A2]. destruct (IH _ _ (writable_cons _ _ _ HW) H) as [B1 B2].
  pose proof (wr_out _ _ HW) as Ho.
  assert (Hne : forall c', c' ∈ cs -> ct_name c' <> ct_name c).
  { intros c' Hc' E'. pose proof (wr_names _ _ HW) as HN. cbn in HN. apply NoDup_cons in HN as [HN _]. apply HN. rewrite <- E'. apply elem_of_list_fmap. by exists c'. }
  assert (Hj : forall c', c' ∈ c :: cs -> path_join out (ct_name c') = out ++ "/" ++ ct_name c').
  { intros c' Hc'. apply join_plain; [done|]. by apply name_no_slash_end, (wr_name _ _ HW). }
  split.
  - intros c' q Hc'. apply elem_of_cons in Hc' as [->|Hc'].
    + rewrite B2; [apply A1|]. intros c' Hc'. destruct (under _ _) eqn:Eu; [|done]. rewrite Hj in Eu by by constructor.
      apply under_names in Eu; [|apply (wr_name _ _ HW); by constructor|apply (wr_name _ _ HW); by constructor]. by apply Hne in Hc'.
    + rewrite B1 by done. destruct (last_source _ _) as [s|] eqn:El; [|done]. apply last_source_in in El. apply A2.
      apply (wr_outside _ _ HW c' c s _ ltac:(by constructor) El). constructor.
  - intros p Hp. rewrite B2; [apply A2, Hp; constructor|]. intros c' Hc'. apply Hp. by constructor.
Qed.
Lemma file_write_ok out cs : forall d, writable out cs ->
  (exists d', file_write out cs d = Ok d') <-> forall c src dst, c ∈ cs -> (src, dst) ∈ ct_paths c -> is_Some (d !! src).
Proof.
  induction cs as [|c cs IH]; intros d HW; cbn [file_write]; [split; [by intros _ ? ? ? ?%elem_of_nil|by eexists]|].
  assert (Hc : c ∈ c :: cs) by constructor. pose proof (wr_out _ _ HW) as Ho.
  destruct (name_no_slash_end _ (wr_name _ _ HW c Hc)) as [_ Hns].
  assert (Hj : path_join out (ct_name c) = out ++ "/" ++ ct_name c) by by apply join_plain.
  assert (Hin : forall s t, (s, t) ∈ ct_paths c -> under (path_join out (ct_name c)) (path_join out t) = true).
  { intros s t Hst. destruct (wr_inside _ _ HW c s t Hc Hst) as [q ->]. rewrite inside_join, Hj by (done || by apply (wr_name _ _ HW)).
    apply under_spec. exists q. by rewrite !sapp_assoc. }
  assert (Hno : forall s t, (s, t) ∈ ct_paths c -> forall s' t', (s', t') ∈ ct_paths c -> path_join out t <> s').
  { intros s t Hst s' t' Hst' E. pose proof (Hin _ _ Hst) as H1. pose proof (wr_outside _ _ HW c c s' t' Hc Hst' Hc) as H2. rewrite E in H1. congruence. }
  pose proof (copy_all_ok out (ct_paths c) (rmtree (path_join out (ct_name c)) d) Hno) as HO.
  destruct (copy_all _ _ _) as [d1|] eqn:E.
  - rewrite IH by by eapply writable_cons. assert (HWc : writable out [c]).
    { destruct HW as [H1 H2 H3 H4 H5]. split; [done|by apply NoDup_singleton|..].
      - intros c0 ->%elem_of_list_singleton. apply H3. constructor.
      - intros c0 src dst ->%elem_of_list_singleton. apply H4. constructor.
      - intros c0 c' src dst ->%elem_of_list_singleton Hst ->%elem_of_list_singleton. eapply H5; [|done|]; constructor. }
    destruct (one_write _ _ _ _ HWc E) as [_ A2]. split.
    + intros H c' src dst [->|Hc']%elem_of_cons Hst.
      * destruct (proj1 HO (ex_intro _ d1 eq_refl) src dst Hst) as [x Hx]. rewrite rmtree_lookup in Hx.
        rewrite (wr_outside _ _ HW c c src dst Hc Hst Hc) in Hx. by eexists.
      * rewrite <- (A2 src); [by eapply H|]. eapply (wr_outside _ _ HW c' c); [by constructor|done|constructor].
    + intros H c' src dst Hc' Hst. rewrite (A2 src); [eapply H; [by constructor|done]|].
      eapply (wr_outside _ _ HW c' c); [by constructor|done|constructor].
  - split; [by intros [? ?]|]. intros H. exfalso. destruct (proj2 HO) as [d' Hd']; [|done].
    intros s t Hst. rewrite rmtree_lookup, (wr_outside _ _ HW c c s t Hc Hst Hc). by eapply H.
Qed.
(* the archive holds the same files: entries in order, each with the content of its source *)
Lemma zip_entries_spec l d es : zip_entries l d = Ok es -> Forall2 (fun st e => e.1 = st.2 /\ d !! st.1 = Some e.2) l es.
Proof.
  revert es. induction l as [|[s t] l IH]; intros es H; cbn in H; [injection H as <-; by constructor|].
  destruct (d !! s) as [x|] eqn:Es; [|done]. destruct (zip_entries l d) as [es'|]; [|done]. injection H as <-. constructor; [done|by apply IH].
Qed.
Lemma zip_entries_ok l d : (exists es, zip_entries l d = Ok es) <-> forall s t, (s, t) ∈ l -> is_Some (d !! s).
Proof.
  induction l as [|[s t] l IH]; cbn; [split; [by intros _ ? ? ?%elem_of_nil|by eexists]|].
  destruct (d !! s) as [x|] eqn:Es.
  - destruct (zip_entries l d) as [es|e]; split.
    + intros _ s' t' [[= -> ->]|H]%elem_of_cons; [by rewrite Es|]. eapply IH; [by eexists|done].
    + intros _. by eexists.
    + by intros [? ?].
    + intros H. destruct IH as [_ IH]. destruct IH as [? ?]; [|done]. intros s' t' H'. eapply H. by constructor.
  - split; [by intros [? ?]|]. intros H. destruct (H s t) as [? ?]; [constructor|]. congruence.
Qed.
Lemma extract_spec out l es (d0 d : disk) : plain_dir out -> (forall s t, (s, t) ∈ l -> starts_slash t = false) ->
  Forall2 (fun st e => e.1 = st.2 /\ d0 !! st.1 = Some e.2) l es -> forall q, starts_slash q = false ->
  zip_extract out es d !! (out ++ "/" ++ q) = match last_source l q with Some s => d0 !! s | None => None end.
Proof.
  intros Ho Hl HF q Hq. unfold zip_extract.
  assert (forall es l (d1 : disk), Forall2 (fun st e => e.1 = st.2 /\ d0 !! st.1 = Some e.2) l es -> (forall s t, (s, t) ∈ l -> starts_slash t = false) ->
    fold_left (fun d e => <[path_join out e.1 := e.2]> d) es d1 !! (out ++ "/" ++ q) = match last_source l q with Some s => d0 !! s | None => d1 !! (out ++ "/" ++ q) end) as H.
  { clear es l HF Hl. induction es as [|[t x] es IH]; intros l d1 HF Hl; inversion HF as [|[s t'] ? l' ? [E1 E2] HF']; subst; [done|]. cbn in E1, E2. subst t'.
    cbn [fold_left fst snd]. rewrite (IH l' _ HF'); [|intros; eapply Hl; by constructor]. cbn [last_source].
    destruct (last_source l' q); [done|]. rewrite join_plain by (done || eapply Hl; constructor). case_decide as Hd.
    - subst t. by rewrite lookup_insert.
    - rewrite lookup_insert_ne; [done|]. intros E. apply sapp_inj in E. by injection E. }
  rewrite (H es l _ HF Hl). destruct (last_source l q); [done|]. rewrite rmtree_lookup.
  assert (under out (out ++ "/" ++ q) = true) as ->; [|done]. apply under_spec. by exists q.
Qed.
