(* contracts/utility/storage.py: the attribute protocol of class Storage.
   A Storage object is its instance dictionary plus the database of the contract.  Of the ICON service's container
   classes only what Storage needs is modelled: VarDB(name, db, type) with get and set on the key [name] (VarDBs with
   different names do not share a key; ArrayDB and DictDB keep their data elsewhere), get decodes what was stored. *)
From Coq Require Import String Ascii ZArith.
From stdpp Require Import base list strings gmap.
From Verif Require Import Res.
Local Open Scope Z_scope.
Local Open Scope string_scope.
Local Open Scope list_scope.

(* plain data: what can be stored in a VarDB *)
Inductive vtype := TInt | TStr | TBool | TAddress | TBytes.
Global Instance vtype_dec : EqDecision vtype.
Proof. solve_decision. Defined.
Inductive value := VInt (z : Z) | VStr (s : string) | VBool (b : bool) | VAddress (a : string) | VBytes (s : string) | VNone
  | VGarbled (* what reading a value at another type gives; not specified further *).
Definition type_of (v : value) : option vtype :=
  match v with VInt _ => Some TInt | VStr _ => Some TStr | VBool _ => Some TBool | VAddress _ => Some TAddress | VBytes _ => Some TBytes | _ => None end.
(* the service's defaults for an unset VarDB *)
Definition default_of (t : vtype) : value :=
  match t with TInt => VInt 0 | TStr => VStr "" | TBool => VBool false | TAddress => VNone | TBytes => VNone end.
Definition decode (t : vtype) (v : value) : value := if decide (type_of v = Some t) then v else VGarbled.

(* container classes and Python values that occur as attributes *)
Inductive db_class := VarDB | ArrayDB | DictDB.
Inductive pyval := PValue (v : value) | PContainer (c : db_class) (key : string) (t : vtype) | PDatabase | PMethod.
Record storage := Storage { st_attrs : gmap string pyval; st_db : gmap string value }.

(* storage.py:38-39 __init__ (through __setattr__; there is no attribute __db) *)
Definition new_storage (db : gmap string value) : storage := Storage {[ "_db" := PDatabase ]} db.
Definition shadow (item : string) : string := String "_" item.
(* item.startswith('_') *)
Definition starts_underscore (item : string) : bool :=
  match item with String c _ => Ascii.eqb c "_" | EmptyString => false end.
(* VarDB.get and VarDB.set; encode_value refuses anything but plain data *)
Definition var_get (s : storage) (key : string) (t : vtype) : value :=
  match st_db s !! key with Some v => decode t v | None => default_of t end.
Definition var_set (s : storage) (key : string) (x : pyval) : res storage :=
  match x with PValue v => Ok (Storage (st_attrs s) (<[key := v]> (st_db s))) | _ => Err "TypeError" end.
(* storage.py:51-57 __setattr__.  getattr(self, shadow, None) finds class attributes too, but these are no VarDB *)
Definition set_attr (s : storage) (item : string) (x : pyval) : res storage :=
  match st_attrs s !! shadow item with
  | Some (PContainer VarDB key _) => var_set s key x
  | _ => Ok (Storage (<[item := x]> (st_attrs s)) (st_db s))
  end.
(* object.__getattribute__: instance dictionary, then the class (whose only public attribute is add_fields) *)
Definition base_getattribute (s : storage) (item : string) : res pyval :=
  match st_attrs s !! item with
  | Some x => Ok x
  | None => if decide (item = "add_fields") then Ok PMethod else Err "AttributeError"
  end.
(* storage.py:59-67 __getattribute__.  No class attribute has a name of the form _x with x not starting with _ *)
Definition get_attr (s : storage) (item : string) : res pyval :=
  if starts_underscore item then base_getattribute s item
  else match st_attrs s !! shadow item with
       | Some (PContainer VarDB key t) => Ok (PValue (var_get s key t))
       | Some x => Ok x
       | None => base_getattribute s item
       end.
(* storage.py:41-49 add_fields; a container needs the database (VarDB itself would fail at its first use) *)
Definition field : Type := string * db_class * vtype.
Fixpoint add_fields (fs : list field) (s : storage) : res storage :=
  match fs with
  | [] => Ok s
  | (name, c, t) :: fs' =>
      match base_getattribute s "_db" with
      | Ok PDatabase => match set_attr s (shadow name) (PContainer c name t) with Ok s' => add_fields fs' s' | Err e => Err e end
      | _ => Err "not a database"
      end
  end.
(* a sequence of assignments storage.item = value *)
Fixpoint write_all (ws : list (string * value)) (s : storage) : res storage :=
  match ws with
  | [] => Ok s
  | (item, v) :: ws' => match set_attr s item (PValue v) with Ok s' => write_all ws' s' | Err e => Err e end
  end.

(* ------------------------------------------------------------- specification ---- *)
Definition public (item : string) : Prop := starts_underscore item = false.
Definition good_fields (fs : list field) : Prop :=
  NoDup (map (fun f => f.1.1) fs) /\ forall n c t, (n, c, t) ∈ fs -> public n /\ n <> "db".
(* the value in the last assignment to [item] *)
Fixpoint last_write (item : string) (ws : list (string * value)) : option value :=
  match ws with
  | [] => None
  | (n, v) :: ws' => match last_write item ws' with Some x => Some x | None => if decide (n = item) then Some v else None end
  end.
(* what is read of a variable: the last assigned value, else what the database held, else the default *)
Definition expected (db : gmap string value) (item : string) (t : vtype) (ws : list (string * value)) : value :=
  match last_write item ws with
  | Some v => decode t v
  | None => match db !! item with Some v => decode t v | None => default_of t end
  end.

(* ------------------------------------------------------------------- proofs ---- *)
Lemma shadow_inj a b : shadow a = shadow b -> a = b.
Proof. unfold shadow. cbn. by intros [=]. Qed.
Lemma public_no_shadow a b : public a -> a <> shadow b.
Proof. intros H ->. unfold shadow, public in H. by cbn in H. Qed.
(* what holds between add_fields and any number of public assignments *)
Record declared (fs : list field) (s : storage) : Prop := {
  d_fields : forall n c t, (n, c, t) ∈ fs -> st_attrs s !! shadow n = Some (PContainer c n t);
  d_only : forall n c k t, st_attrs s !! n = Some (PContainer c k t) -> (k, c, t) ∈ fs /\ n = shadow k }.
Lemma add_fields_ok fs : forall s fs0, good_fields (fs0 ++ fs) -> declared fs0 s -> st_attrs s !! "_db" = Some PDatabase ->
  exists s', add_fields fs s = Ok s' /\ declared (fs0 ++ fs) s' /\ st_db s' = st_db s.
Proof.
  induction fs as [|[[n c] t] fs IH]; intros s fs0 HG HD Hdb.
  - exists s. rewrite app_nil_r. done.
  - cbn [add_fields]. unfold base_getattribute. rewrite Hdb. unfold set_attr.
    assert ((n, c, t) ∈ fs0 ++ (n, c, t) :: fs) as Hin by (apply elem_of_app; right; by constructor).
    destruct HG as [HN HP]. destruct (HP _ _ _ Hin) as [Hpub Hndb].
    assert (Hno : forall k' c' t', st_attrs s !! shadow (shadow n) <> Some (PContainer c' k' t')).
    { intros k' c' t' E. apply (d_only _ _ HD) in E as [Hk E]. apply shadow_inj in E. assert (public k') as Hk' by (eapply (HP k' c' t'); apply elem_of_app; by left).
      by apply (public_no_shadow k' n) in Hk'. }
    assert (match st_attrs s !! shadow (shadow n) with
            | Some (PContainer VarDB key _) => var_set s key (PContainer c n t)
            | _ => Ok (Storage (<[shadow n := PContainer c n t]> (st_attrs s)) (st_db s)) end
            = Ok (Storage (<[shadow n := PContainer c n t]> (st_attrs s)) (st_db s))) as ->.
    { destruct (st_attrs s !! shadow (shadow n)) as [[|[] ? ?| |]|] eqn:E; try done. by destruct (Hno _ _ _ eq_refl). }
    destruct (IH (Storage (<[shadow n := PContainer c n t]> (st_attrs s)) (st_db s)) (fs0 ++ [(n, c, t)])) as (s' & E & HD' & Edb).
    + rewrite <- app_assoc. by split.
    + assert (forall c' t', (n, c', t') ∉ fs0) as Hnew.
      { intros c' t' Hx. rewrite map_app in HN. apply NoDup_app in HN as (_ & HN & _). apply (HN n).
        - apply elem_of_list_fmap. by exists (n, c', t').
        - cbn. by constructor. }
      split; cbn.
      * intros n' c' t' H. apply elem_of_app in H as [H|H].
        -- rewrite lookup_insert_ne; [by apply HD|]. intros E. apply shadow_inj in E. subst. by apply Hnew in H.
        -- apply elem_of_list_singleton in H as [= -> -> ->]. by rewrite lookup_insert.
      * intros n' c' k' t' H. destruct (decide (n' = shadow n)) as [->|Hne].
        -- rewrite lookup_insert in H. injection H as -> -> ->. split; [|done]. apply elem_of_app. right. by constructor.
        -- rewrite lookup_insert_ne in H by done. apply HD in H as [H ->]. split; [|done]. apply elem_of_app. by left.
    + cbn. rewrite lookup_insert_ne; [done|]. intros E. apply (shadow_inj n "db") in E. done.
    + exists s'. split; [done|]. by rewrite <- app_assoc in HD'.
Qed.
Lemma declared_new db : declared [] (new_storage db).
Proof.
  split; [by intros ? ? ? ?%elem_of_nil|]. intros n c k t H. cbn in H. destruct (decide (n = "_db")) as [->|]; [by rewrite lookup_singleton in H|].
  by rewrite lookup_singleton_ne in H.
Qed.
Lemma write_declared fs s item v : good_fields fs -> declared fs s -> public item ->
  exists s', set_attr s item (PValue v) = Ok s' /\ declared fs s' /\
    forall n t, (n, VarDB, t) ∈ fs -> st_db s' !! n = if decide (item = n) then Some v else st_db s !! n.
Proof.
  intros HG HD Hp. unfold set_attr.
  assert (forall n t, (n, VarDB, t) ∈ fs -> st_attrs s !! shadow item <> Some (PContainer VarDB n t) -> item <> n) as Hne.
  { intros n t Hin H ->. apply H. by apply HD. }
  assert ((exists k t, st_attrs s !! shadow item = Some (PContainer VarDB k t)) \/ ~ exists k t, st_attrs s !! shadow item = Some (PContainer VarDB k t))
    as [(k & t & E)|Hno].
  { destruct (st_attrs s !! shadow item) as [[|[] ? ?| |]|]; try (right; by intros (? & ? & ?)). left. by eexists _, _. }
  - rewrite E. cbn. eexists. split; [done|]. destruct (d_only _ _ HD _ _ _ _ E) as [Hk Ek%shadow_inj]. subst k. split; [by destruct HD; split|].
    intros n t' Hn. cbn. destruct (decide (item = n)) as [->|]; [by rewrite lookup_insert|by rewrite lookup_insert_ne].
  - assert (match st_attrs s !! shadow item with Some (PContainer VarDB key _) => var_set s key (PValue v) | _ => Ok (Storage (<[item := PValue v]> (st_attrs s)) (st_db s)) end
       = Ok (Storage (<[item := PValue v]> (st_attrs s)) (st_db s))) as ->.
    { destruct (st_attrs s !! shadow item) as [[|[] ? ?| |]|] eqn:E; try done. destruct Hno. by eexists _, _. }
    eexists. split; [done|]. split.
    + split; cbn.
      * intros n c t H. rewrite lookup_insert_ne; [by apply HD|]. by apply public_no_shadow.
      * intros n c k t H. destruct (decide (n = item)) as [->|]; [by rewrite lookup_insert in H|]. rewrite lookup_insert_ne in H by done. by apply HD in H.
    + intros n t H. cbn. rewrite decide_False; [done|]. eapply Hne; [done|]. intros E. apply Hno. by eexists _, _.
Qed.
Lemma write_all_declared fs ws : forall s, good_fields fs -> declared fs s -> Forall (fun p => public p.1) ws ->
  exists s', write_all ws s = Ok s' /\ declared fs s' /\
    forall n t, (n, VarDB, t) ∈ fs -> st_db s' !! n = match last_write n ws with Some v => Some v | None => st_db s !! n end.
Proof.
  induction ws as [|[item v] ws IH]; intros s HG HD HP; [by exists s|]. apply Forall_cons in HP as [Hp HP]. cbn in Hp.
  destruct (write_declared fs s item v HG HD Hp) as (s1 & E1 & HD1 & H1). destruct (IH s1 HG HD1 HP) as (s2 & E2 & HD2 & H2).
  cbn [write_all]. rewrite E1. exists s2. split; [done|]. split; [done|]. intros n t Hn. rewrite (H2 n t Hn), (H1 n t Hn). cbn [last_write].
  destruct (last_write n ws); [done|]. by case_decide.
Qed.
