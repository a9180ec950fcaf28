(* A meaning for the Python syntax of PySyntax.v: what a method of a contract does, as a tree of actions on the world of World.v.

   Values are Python values; objects of iconservice (database variables, self.msg, interface SCOREs...) are special values.
   An exception ends the message call, so it ends the tree ([Fail]); [Stuck] marks what this interpreter has no meaning for,
   and every method is proved never to get there (Source*.v).  Simplifications:
   - lists and dictionaries are values, not references (the code never aliases one);
   - a [try] all whose handlers do nothing but revert is its body; any other [try] is Stuck;
   - the texts of f-strings and of reverts are not kept;
   - what another contract returns keeps its dynamic type until it is used; a use that needs another type fails.  In Python True
     can be used as 1: an unknown contract can answer 1 just as well.  An answer to balanceOf or totalSupply that is no integer
     fails at once, as in World.v;
   - a database variable of type Address refuses other values; the storage class ConnectorDict of the converter (converter.py:55-72) is
     not interpreted: its shape is checked ([item_class]) and it is then a map from addresses to records, as in World.v; the database
     variables of its items are those of Connector.__init__;
   - the database variable 'version' of the flexible token (flexible_token.py:43) holds the constant "0.1" and nothing else. *)
From Coq Require Import String ZArith.
From stdpp Require Import base countable list numbers strings gmap.
From Verif Require Import Res PySyntax PySource Codec World.
Local Open Scope string_scope.
Local Open Scope list_scope.
Local Open Scope Z_scope.

(* ------------------------------------------------------------------ actions ---- *)
(* how an execution ends *)
Inductive result (A : Type) : Type := Done (a : A) | Failed | NoMeaning.
Arguments Done {A} a. Arguments Failed {A}. Arguments NoMeaning {A}.
Definition of_res {A} (r : res A) : result A := match r with Ok a => Done a | Err _ => Failed end.
Definition andthen {A B} (r : result A) (f : A -> result B) : result B :=
  match r with Done a => f a | Failed => Failed | NoMeaning => NoMeaning end.
Inductive act (A : Type) : Type :=
| Ret (a : A)
| Fail (e : string)                                   (* an exception *)
| Stuck                                               (* no meaning *)
| Cond (b : bool) (t e : act A)                       (* the code branches *)
| Need (X : Type) (o : option X) (k : X -> act A)     (* TypeError, KeyError, IndexError ... if there is none *)
| Get (k : score -> act A)                            (* read own storage *)
| Mod (f : score -> score) (k : act A)                (* write own storage *)
| Log (e : event) (k : act A)
| Call (to : addr) (v : Z) (m : msg) (k : rv -> act A)
| Sub (r : result Z) (k : Z -> act A).                (* the result of a computation *)
Arguments Ret {A} a. Arguments Fail {A} e. Arguments Stuck {A}. Arguments Cond {A} b t e. Arguments Need {A X} o k.
Arguments Get {A} k. Arguments Mod {A} f k. Arguments Log {A} e k. Arguments Call {A} to v m k. Arguments Sub {A} r k.

Fixpoint abind {A B} (t : act A) (f : A -> act B) : act B :=
  match t with
  | Ret a => f a
  | Fail e => Fail e
  | Stuck => Stuck
  | Cond b t e => Cond b (abind t f) (abind e f)
  | Need o k => Need o (fun x => abind (k x) f)
  | Get k => Get (fun sc => abind (k sc) f)
  | Mod g k => Mod g (abind k f)
  | Log e k => Log e (abind k f)
  | Call to v m k => Call to v m (fun r => abind (k r) f)
  | Sub r k => Sub r (fun z => abind (k z) f)
  end.
Declare Scope act_scope.
Notation "x <- t ; k" := (abind t (fun x => k)) (at level 100, t at next level, k at level 200, right associativity) : act_scope.
Local Open Scope act_scope.

(* what the tree does to the world, in the frame c *)
Fixpoint denote {A} (call : bool -> addr -> addr -> Z -> msg -> M rv) (c : ctx) (t : act A) (w : world) : result (A * world) :=
  match t with
  | Ret a => Done (a, w)
  | Fail e => Failed
  | Stuck => NoMeaning
  | Cond b t e => if b then denote call c t w else denote call c e w
  | Need o k => match o with Some x => denote call c (k x) w | None => Failed end
  | Get k => andthen (of_res (this c w)) (fun p => denote call c (k p.1) p.2)
  | Mod f k => andthen (of_res (modify c f w)) (fun p => denote call c k p.2)
  | Log e k => andthen (of_res (emit c e w)) (fun p => denote call c k p.2)
  | Call to v m k => andthen (of_res (call (c_ro c) (c_self c) to v m w)) (fun p => denote call c (k p.1) p.2)
  | Sub r k => andthen r (fun z => denote call c (k z) w)
  end.
(* the same for code that only computes *)
Fixpoint run {A} (t : act A) : result A :=
  match t with
  | Ret a => Done a
  | Fail e => Failed
  | Cond b t e => if b then run t else run e
  | Need o k => match o with Some x => run (k x) | None => Failed end
  | _ => NoMeaning
  end.

(* ------------------------------------------------------------------- values ---- *)
Inductive value :=
| VNone | VInt (z : Z) | VBool (b : bool) | VStr (s : string)
| VBytes (d : data) | VText (d : data)                (* bytes, and bytes.decode() *)
| VAddr (a : addr)
| VMaybe (o : option addr)                            (* an address or None, read from a database *)
| VRes (r : rv)                                       (* what another contract returned *)
| VJson (j : json) | VJObj (m : gmap string json)     (* from json_loads *)
| VList (l : list value) | VTuple (l : list value) | VSet (l : list value) | VRange (a b s : Z)
| VDict (l : list (string * value))
| VSelf | VMsg | VIcx | VSuper
| VVarDB (key : string) | VDictDB (key : string) | VArrayDB (key : string)
| VConns | VConn (a : addr) | VConnVar (a : addr) (field : string)
| VClass (m k : string) | VIface (m k : string) | VProxy (a : addr) (deco m k : string)   (* an interface SCORE: its functions are the methods of the class with the decorator *)
| VInst (m k : string)
| VClos (m : string) (tail : list (string * string)) (f : fundef) (bound : bool)
| VLam (m : string) (tail : list (string * string)) (env : list (string * value)) (ps : list string) (b : expr)
| VBuiltin (x : string) | VBound (v : value) (x : string).
Definition env := list (string * value).

Fixpoint assoc {A} (x : string) (l : list (string * A)) : option A :=
  match l with [] => None | (y, v) :: l => if String.eqb x y then Some v else assoc x l end.
Fixpoint update {A} (x : string) (v : A) (l : list (string * A)) : list (string * A) :=
  match l with [] => [(x, v)] | (y, u) :: l => if String.eqb x y then (x, v) :: l else (y, u) :: update x v l end.

(* primitive tests and accesses *)
Definition same_addr (a b : addr) : bool := bool_decide (a = b).
Definition same_maybe (a b : option addr) : bool := bool_decide (a = b).
Definition same_str (a b : string) : bool := bool_decide (a = b).
Definition same_data (a b : data) : bool := bool_decide (a = b).
Definition no_addr (o : option addr) : bool := bool_decide (o = None).
Definition str_in (s : string) (l : list string) : bool := bool_decide (s ∈ l).
Definition distinct (l : list addr) : Z := Z.of_nat (size (list_to_set l : gset addr)).
Definition rv_int (r : rv) : option Z := match r with RInt z => Some z | _ => None end.
Definition rv_addr (r : rv) : option addr := match r with RAddr a => Some a | _ => None end.
Definition rv_amount (r : rv) : option Z := match r with RRet a _ => Some a | _ => None end.
Definition rv_none (r : rv) : bool := match r with RNone => true | _ => false end.
Definition rv_is (a : addr) (r : rv) : bool := match r with RAddr b => same_addr a b | _ => false end.
Definition json_str (j : json) : option string := match j with JStr s => Some s | _ => None end.
Definition json_is_int (j : json) : bool := match json_int j with Some _ => true | None => false end.
Definition json_null (j : json) : bool := bool_decide (j = JNull).
Definition data_object (d : data) : option (gmap string json) := match d with DJson m => Some m | DRaw _ => None end.
Definition field (m : gmap string json) (k : string) : option json := m !! k.
Definition has_field (m : gmap string json) (k : string) : bool := bool_decide (m !! k <> None).
Definition no_fields : gmap string json := ∅.
Definition put_field (k : string) (j : json) (m : gmap string json) : gmap string json := <[k := j]> m.
Definition from_text (s : string) : option addr := addr_from_string s.
(* databases *)
Definition put_bal (a : addr) (z : Z) (sc : score) : score := set_bal (<[a := z]> (s_bal sc)) sc.
Definition icx_token (sc : score) (a : addr) : bool := default false (s_icx_tokens sc !! a).
Definition put_icx_token (a : addr) (b : bool) (sc : score) : score := set_icx_tokens (<[a := b]> (s_icx_tokens sc)) sc.
Definition registered (sc : score) (n : string) : option addr := s_addrs sc !! n.
Definition put_registered (n : string) (a : addr) (sc : score) : score := set_addrs (<[n := a]> (s_addrs sc)) sc.
Definition del_registered (n : string) (sc : score) : score := set_addrs (delete n (s_addrs sc)) sc.
Definition put_conn_token (a : addr) (sc : score) : score := set_conn_tokens (s_conn_tokens sc ++ [a]) sc.
Definition conn_count (sc : score) : Z := Z.of_nat (List.length (s_conn_tokens sc)).
Definition conn_token (sc : score) (i : Z) : option addr :=
  let n := conn_count sc in
  let j := if i <? 0 then i + n else i in
  if (0 <=? j) && (j <? n) then s_conn_tokens sc !! Z.to_nat j else None.
Definition put_virtual (a : addr) (z : Z) (sc : score) : score :=
  let cn := conn sc a in set_conn a (Connector z (cn_weight cn) (cn_venabled cn) (cn_penabled cn) (cn_set cn)) sc.
Definition put_weight (a : addr) (z : Z) (sc : score) : score :=
  let cn := conn sc a in set_conn a (Connector (cn_virtual cn) z (cn_venabled cn) (cn_penabled cn) (cn_set cn)) sc.
Definition put_venabled (a : addr) (b : bool) (sc : score) : score :=
  let cn := conn sc a in set_conn a (Connector (cn_virtual cn) (cn_weight cn) b (cn_penabled cn) (cn_set cn)) sc.
Definition put_penabled (a : addr) (b : bool) (sc : score) : score :=
  let cn := conn sc a in set_conn a (Connector (cn_virtual cn) (cn_weight cn) (cn_venabled cn) b (cn_set cn)) sc.
Definition put_isset (a : addr) (b : bool) (sc : score) : score :=
  let cn := conn sc a in set_conn a (Connector (cn_virtual cn) (cn_weight cn) (cn_venabled cn) (cn_penabled cn) b) sc.

(* uses of a value that need a type *)
Definition need_int {A} (v : value) (k : Z -> act A) : act A :=
  match v with
  | VInt z => k z
  | VRes r => Need (rv_int r) k
  | VJson j => Need (json_int j) k
  | _ => Stuck
  end.
Definition need_addr {A} (v : value) (k : addr -> act A) : act A :=
  match v with
  | VAddr a => k a
  | VMaybe o => Need o k
  | VRes r => Need (rv_addr r) k
  | _ => Stuck
  end.
Definition need_str {A} (v : value) (k : string -> act A) : act A :=
  match v with
  | VStr s => k s
  | VJson j => Need (json_str j) k
  | _ => Stuck
  end.
Definition need_bool {A} (v : value) (k : bool -> act A) : act A := match v with VBool b => k b | _ => Stuck end.
Definition need_data {A} (v : value) (k : data -> act A) : act A := match v with VBytes d => k d | _ => Stuck end.
(* an address or None *)
Definition need_maybe {A} (v : value) (k : option addr -> act A) : act A :=
  match v with VAddr a => k (Some a) | VMaybe o => k o | VNone => k None | _ => Stuck end.

(* x is None *)
Definition is_none (v : value) : bool :=
  match v with
  | VNone => true
  | VMaybe o => no_addr o
  | VRes r => rv_none r
  | VJson j => json_null j
  | _ => false
  end.
(* a == b; None: no meaning *)
Definition equal (a b : value) : option bool :=
  match a, b with
  | VInt x, VInt y => Some (x =? y)
  | VBool x, VBool y => Some (Bool.eqb x y)
  | VStr x, VStr y => Some (same_str x y)
  | VBytes x, VBytes y => Some (same_data x y)
  | VAddr x, VAddr y => Some (same_addr x y)
  | VAddr x, VMaybe y => Some (same_maybe (Some x) y)
  | VMaybe x, VAddr y => Some (same_maybe x (Some y))
  | VAddr x, VRes r => Some (rv_is x r)
  | VRes r, VAddr y => Some (rv_is y r)
  | VAddr _, VClos _ _ _ _ => Some false                (* an address and a method *)
  | _, _ => None
  end.
Definition set_size (l : list value) : option Z :=
  match mapM (fun v => match v with VAddr a => Some a | _ => None end) l with
  | Some l => Some (distinct l)
  | None => None
  end.

(* --------------------------------------------------------------- operators ---- *)
Definition binop_sem (op : binop) (a b : Z) : act value :=
  match op with
  | BAdd => Ret (VInt (a + b))
  | BSub => Ret (VInt (a - b))
  | BMul => Ret (VInt (a * b))
  | BFloorDiv => Cond (b =? 0) (Fail "ZeroDivisionError") (Ret (VInt (a / b)))
  | BMod => Cond (b =? 0) (Fail "ZeroDivisionError") (Ret (VInt (a mod b)))
  | BPow => Cond (b <? 0) (Fail "float") (Ret (VInt (a ^ b)))     (* a negative exponent gives a float: not modelled *)
  | BShl => Cond (b <? 0) (Fail "ValueError") (Ret (VInt (Z.shiftl a b)))
  | BShr => Cond (b <? 0) (Fail "ValueError") (Ret (VInt (Z.shiftr a b)))
  | BAnd => Ret (VInt (Z.land a b))
  | BOr => Ret (VInt (Z.lor a b))
  end.
Definition binop_val (op : binop) (a b : value) : act value :=
  match op, a with
  | BMul, VList [v] => need_int b (fun n => Ret (VList (replicate (Z.to_nat n) v)))   (* [None] * 128 *)
  | _, _ => need_int a (fun x => need_int b (fun y => binop_sem op x y))
  end.
Definition contains (x l : value) : option bool :=
  match x, l with
  | VStr s, VList vs => match mapM (fun v => match v with VStr s => Some s | _ => None end) vs with
                        | Some ss => Some (str_in s ss) | None => None end
  | VStr s, VJObj m => Some (has_field m s)
  | _, _ => None
  end.
Definition of_opt (o : option bool) : act value := match o with Some b => Ret (VBool b) | None => Stuck end.
Definition cmp_sem (op : cmpop) (a b : value) : act value :=
  match op with
  | CEq => of_opt (equal a b)
  | CNe => of_opt (option_map negb (equal a b))
  | CLt => need_int a (fun x => need_int b (fun y => Ret (VBool (x <? y))))
  | CLe => need_int a (fun x => need_int b (fun y => Ret (VBool (x <=? y))))
  | CGt => need_int a (fun x => need_int b (fun y => Ret (VBool (y <? x))))
  | CGe => need_int a (fun x => need_int b (fun y => Ret (VBool (y <=? x))))
  | CIs => match b with VNone => Ret (VBool (is_none a)) | _ => Stuck end
  | CIsNot => match b with VNone => Ret (VBool (negb (is_none a))) | _ => Stuck end
  | CIn => of_opt (contains a b)
  | CNotIn => of_opt (option_map negb (contains a b))
  end.
(* branch on a condition *)
Definition branch {A} (v : value) (t e : act A) : act A :=
  match v with
  | VBool b => Cond b t e
  | _ => Stuck
  end.

(* ---------------------------------------------------------------- databases ---- *)
(* VarDB(key).get() *)
Definition var_get (key : string) (sc : score) : option value :=
  if String.eqb key "prev_owner" then Some (VAddr (s_owner sc)) else
  if String.eqb key "new_owner" then Some (VAddr (s_new_owner sc)) else
  if String.eqb key "manager" then Some (VMaybe (s_manager sc)) else
  if String.eqb key "new_manager" then Some (VMaybe (s_new_manager sc)) else
  if String.eqb key "name" then Some (VStr (s_name sc)) else
  if String.eqb key "symbol" then Some (VStr (s_symbol sc)) else
  if String.eqb key "total_supply" then Some (VInt (s_supply sc)) else
  if String.eqb key "decimals" then Some (VInt (s_decimals sc)) else
  if String.eqb key "version" then Some (VStr "0.1") else
  if String.eqb key "transfer_possibility" then Some (VBool (s_transferable sc)) else
  if String.eqb key "token" then Some (VAddr (s_token sc)) else
  if String.eqb key "allow_registry_update" then Some (VBool (s_allow_reg sc)) else
  if String.eqb key "prev_registry" then Some (VAddr (s_prev_registry sc)) else
  if String.eqb key "registry" then Some (VAddr (s_registry sc)) else
  if String.eqb key "total_connector_weight" then Some (VInt (s_total_weight sc)) else
  if String.eqb key "max_conversion_fee" then Some (VInt (s_max_fee sc)) else
  if String.eqb key "conversion_fee" then Some (VInt (s_fee sc)) else
  if String.eqb key "conversions_enabled" then Some (VBool (s_enabled sc)) else None.
(* VarDB(key).set(v) *)
Definition var_set (key : string) (v : value) : act value :=
  let write f := Mod f (Ret VNone) in
  if String.eqb key "prev_owner" then need_addr v (fun a => write (set_owner a)) else
  if String.eqb key "new_owner" then need_addr v (fun a => write (set_new_owner a)) else
  if String.eqb key "manager" then need_maybe v (fun o => write (set_manager o)) else
  if String.eqb key "new_manager" then need_maybe v (fun o => write (set_new_manager o)) else
  if String.eqb key "name" then need_str v (fun s => write (set_name s)) else
  if String.eqb key "symbol" then need_str v (fun s => write (set_symbol s)) else
  if String.eqb key "total_supply" then need_int v (fun z => write (set_supply z)) else
  if String.eqb key "decimals" then need_int v (fun z => write (set_decimals z)) else
  if String.eqb key "version" then match v with VStr s => if String.eqb s "0.1" then Ret VNone else Stuck | _ => Stuck end else
  if String.eqb key "transfer_possibility" then need_bool v (fun b => write (set_transferable b)) else
  if String.eqb key "token" then need_addr v (fun a => write (set_token a)) else
  if String.eqb key "allow_registry_update" then need_bool v (fun b => write (set_allow_reg b)) else
  if String.eqb key "prev_registry" then need_addr v (fun a => write (set_prev_registry a)) else
  if String.eqb key "registry" then need_addr v (fun a => write (set_registry a)) else
  if String.eqb key "total_connector_weight" then need_int v (fun z => write (set_total_weight z)) else
  if String.eqb key "max_conversion_fee" then need_int v (fun z => write (set_max_fee z)) else
  if String.eqb key "conversion_fee" then need_int v (fun z => write (set_fee z)) else
  if String.eqb key "conversions_enabled" then need_bool v (fun b => write (set_enabled b)) else Stuck.
(* DictDB(key)[i] *)
Definition dict_get (key : string) (i : value) : act value :=
  if String.eqb key "balances" then need_addr i (fun a => Get (fun sc => Ret (VInt (balance sc a)))) else
  if String.eqb key "icx_tokens" then need_addr i (fun a => Get (fun sc => Ret (VBool (icx_token sc a)))) else
  if String.eqb key "score_address" then need_str i (fun s => Get (fun sc => Ret (VMaybe (registered sc s)))) else Stuck.
(* DictDB(key)[i] = v *)
Definition dict_set (key : string) (i v : value) : act value :=
  let write f := Mod f (Ret VNone) in
  if String.eqb key "balances" then need_addr i (fun a => need_int v (fun z => write (put_bal a z))) else
  if String.eqb key "icx_tokens" then need_addr i (fun a => need_bool v (fun b => write (put_icx_token a b))) else
  if String.eqb key "score_address" then need_str i (fun s => need_addr v (fun a => write (put_registered s a))) else Stuck.
(* del DictDB(key)[i] *)
Definition dict_del (key : string) (i : value) : act value :=
  if String.eqb key "score_address" then need_str i (fun s => Mod (del_registered s) (Ret VNone)) else Stuck.
(* the fields of a connector: converter.py:42-52 *)
Definition conn_get (f : string) (cn : connector) : option value :=
  if String.eqb f "virtual_balance" then Some (VInt (cn_virtual cn)) else
  if String.eqb f "weight" then Some (VInt (cn_weight cn)) else
  if String.eqb f "is_virtual_balance_enabled" then Some (VBool (cn_venabled cn)) else
  if String.eqb f "is_purchase_enabled" then Some (VBool (cn_penabled cn)) else
  if String.eqb f "is_set" then Some (VBool (cn_set cn)) else None.
Definition conn_set (a : addr) (f : string) (v : value) : act value :=
  let write g := Mod g (Ret VNone) in
  if String.eqb f "virtual_balance" then need_int v (fun z => write (put_virtual a z)) else
  if String.eqb f "weight" then need_int v (fun z => write (put_weight a z)) else
  if String.eqb f "is_virtual_balance_enabled" then need_bool v (fun b => write (put_venabled a b)) else
  if String.eqb f "is_purchase_enabled" then need_bool v (fun b => write (put_penabled a b)) else
  if String.eqb f "is_set" then need_bool v (fun b => write (put_isset a b)) else Stuck.

(* ------------------------------------------------- events and calls by name ---- *)
(* an @eventlog method called with these arguments *)
Definition log_event (x : string) (vs : list value) : act value :=
  let log e := Log e (Ret VNone) in
  if String.eqb x "Transfer" then match vs with [a; b; v; d] => need_addr a (fun a => need_addr b (fun b => need_int v (fun v => need_data d (fun d => log (EvTransfer a b v d))))) | _ => Stuck end else
  if String.eqb x "Issuance" then match vs with [v] => need_int v (fun v => log (EvIssuance v)) | _ => Stuck end else
  if String.eqb x "Destruction" then match vs with [v] => need_int v (fun v => log (EvDestruction v)) | _ => Stuck end else
  if String.eqb x "NewFlexibleToken" then match vs with [a] => need_addr a (fun a => log (EvNewFlexibleToken a)) | _ => Stuck end else
  if String.eqb x "OwnerUpdate" then match vs with [a; b] => need_addr a (fun a => need_addr b (fun b => log (EvOwnerUpdate a b))) | _ => Stuck end else
  if String.eqb x "ManagerUpdate" then match vs with [a; b] => need_maybe a (fun a => need_maybe b (fun b => log (EvManagerUpdate a b))) | _ => Stuck end else
  if String.eqb x "Conversion" then
    match vs with [a; b; t; v; r; f] => need_addr a (fun a => need_addr b (fun b => need_addr t (fun t => need_int v (fun v => need_int r (fun r => need_int f (fun f => log (EvConversion a b t v r f))))))) | _ => Stuck end else
  if String.eqb x "PriceDataUpdate" then
    match vs with [a; s; b; w] => need_addr a (fun a => need_int s (fun s => need_int b (fun b => need_int w (fun w => log (EvPriceDataUpdate a s b w))))) | _ => Stuck end else
  if String.eqb x "ConversionFeeUpdate" then match vs with [a; b] => need_int a (fun a => need_int b (fun b => log (EvConversionFeeUpdate a b))) | _ => Stuck end else
  if String.eqb x "ConversionsEnable" then match vs with [b] => need_bool b (fun b => log (EvConversionsEnable b)) | _ => Stuck end else
  if String.eqb x "AddressUpdate" then match vs with [n; a] => need_str n (fun n => need_addr a (fun a => log (EvAddressUpdate n a))) | _ => Stuck end else Stuck.
(* a method of an interface SCORE at address a *)
Definition proxy_call (a : addr) (x : string) (vs : list value) : act value :=
  let send m := Call a 0 m (fun r => Ret (VRes r)) in
  let number m := Call a 0 m (fun r => Need (rv_int r) (fun z => Ret (VInt z))) in
  if String.eqb x "getOwner" then match vs with [] => send MGetOwner | _ => Stuck end else
  if String.eqb x "transferOwnerShip" then match vs with [b] => need_addr b (fun b => send (MTransferOwnership b)) | _ => Stuck end else
  if String.eqb x "acceptOwnerShip" then match vs with [] => send MAcceptOwnership | _ => Stuck end else
  if String.eqb x "disableTransfer" then match vs with [b] => need_bool b (fun b => send (MDisableTransfer b)) | _ => Stuck end else
  if String.eqb x "withdrawTokens" then match vs with [t; b; v] => need_addr t (fun t => need_addr b (fun b => need_int v (fun v => send (MWithdrawTokens t b v)))) | _ => Stuck end else
  if String.eqb x "transfer" then
    match vs with
    | [b; v] => need_addr b (fun b => need_int v (fun v => send (MTransfer b v None)))
    | [b; v; d] => need_addr b (fun b => need_int v (fun v => need_data d (fun d => send (MTransfer b v (Some d)))))
    | _ => Stuck end else
  if String.eqb x "tokenFallback" then match vs with [b; v; d] => need_addr b (fun b => need_int v (fun v => need_data d (fun d => send (MTokenFallback b v d)))) | _ => Stuck end else
  if String.eqb x "balanceOf" then match vs with [b] => need_addr b (fun b => number (MBalanceOf b)) | _ => Stuck end else
  if String.eqb x "totalSupply" then match vs with [] => number MTotalSupply | _ => Stuck end else
  if String.eqb x "issue" then match vs with [b; v] => need_addr b (fun b => need_int v (fun v => send (MIssue b v))) | _ => Stuck end else
  if String.eqb x "destroy" then match vs with [b; v] => need_addr b (fun b => need_int v (fun v => send (MDestroy b v))) | _ => Stuck end else
  if String.eqb x "withdrawTo" then match vs with [v; b] => need_int v (fun v => need_addr b (fun b => send (MWithdrawTo v b))) | _ => Stuck end else
  if String.eqb x "getReturn" then match vs with [f; t; v] => need_addr f (fun f => need_addr t (fun t => need_int v (fun v => send (MGetReturn f t v)))) | _ => Stuck end else
  if String.eqb x "getAddress" then match vs with [n] => need_str n (fun n => send (MGetAddress n)) | _ => Stuck end else Stuck.

(* json_dumps of a dictionary, as a request that the receiver parses again (JsonModel.v): the values the network writes *)
Definition dump (v : value) : option json :=
  match v with VStr s => Some (JStr s) | VInt z => Some (JInt z) | VJson j => Some j | _ => None end.
Fixpoint dumps (l : list (string * value)) : option (gmap string json) :=
  match l with
  | [] => Some no_fields
  | (k, v) :: l => match dump v, dumps l with Some j, Some m => Some (put_field k j m) | _, _ => None end
  end.

(* methods of values *)
Definition bound_call (v : value) (x : string) (vs : list value) : act value :=
  match v with
  | VVarDB key =>
      if String.eqb x "get" then match vs with [] => Get (fun sc => match var_get key sc with Some u => Ret u | None => Stuck end) | _ => Stuck end else
      if String.eqb x "set" then match vs with [u] => var_set key u | _ => Stuck end else Stuck
  | VConnVar a f =>
      if String.eqb x "get" then match vs with [] => Get (fun sc => match conn_get f (conn sc a) with Some u => Ret u | None => Stuck end) | _ => Stuck end else
      if String.eqb x "set" then match vs with [u] => conn_set a f u | _ => Stuck end else Stuck
  | VArrayDB key =>
      if String.eqb key "connector_tokens" && String.eqb x "put" then
        match vs with [u] => need_addr u (fun a => Mod (put_conn_token a) (Ret VNone)) | _ => Stuck end
      else Stuck
  | VIcx => if String.eqb x "transfer" then match vs with [b; v] => need_addr b (fun b => need_int v (fun v => Call b v MFallback (fun r => Ret (VRes r)))) | _ => Stuck end else Stuck
  | VProxy a _ _ _ => proxy_call a x vs
  | VBytes d => if String.eqb x "decode" then Ret (VText d) else Stuck
  | VText d => if String.eqb x "encode" then Ret (VBytes d) else Stuck
  | VStr s =>
      if String.eqb x "strip" then match vs with [] => Ret (VStr (strip s)) | _ => Stuck end else
      if String.eqb x "split" then match vs with [VStr ","] => Ret (VList (map VStr (split_comma s))) | _ => Stuck end else Stuck
  | VJson j =>                                                     (* a string from JSON *)
      if String.eqb x "split" then match vs with [VStr ","] => need_str v (fun s => Ret (VList (map VStr (split_comma s)))) | _ => Stuck end else Stuck
  | VBuiltin cls =>
      if String.eqb cls "Address" && String.eqb x "from_string" then
        match vs with [u] => need_str u (fun s => Need (from_text s) (fun a => Ret (VAddr a))) | _ => Stuck end else
      if String.eqb cls "IconScoreBase" && (String.eqb x "on_install" || String.eqb x "on_update") then Ret VNone else
      if String.eqb cls "Logger" then Ret VNone else Stuck
  | _ => Stuck
  end.
Fixpoint enumerate (i : Z) (l : list value) : list value :=
  match l with [] => [] | v :: l => VTuple [VInt i; v] :: enumerate (i + 1) l end.
(* range(a, b, s) *)
Definition range_list (a b s : Z) : list Z :=
  if 0 <? s then map (fun i => a + s * Z.of_nat i) (seq 0 (Z.to_nat ((b - a + s - 1) / s)))
  else map (fun i => a + s * Z.of_nat i) (seq 0 (Z.to_nat ((a - b - s - 1) / - s))).
Definition builtin_call (x : string) (vs : list value) : act value :=
  if String.eqb x "revert" then Fail "revert" else
  if String.eqb x "len" then
    match vs with
    | [VList l] => Ret (VInt (Z.of_nat (List.length l)))
    | [VSet l] => match set_size l with Some z => Ret (VInt z) | None => Stuck end
    | [VArrayDB key] => if String.eqb key "connector_tokens" then Get (fun sc => Ret (VInt (conn_count sc))) else Stuck
    | _ => Stuck end else
  if String.eqb x "range" then match vs with [VInt a; VInt b; VInt s] => Ret (VRange a b s) | _ => Stuck end else
  if String.eqb x "enumerate" then match vs with [VList l] => Ret (VList (enumerate 0 l)) | _ => Stuck end else
  if String.eqb x "str" then match vs with [VAddr a] => Ret (VStr (addr_to_string a)) | [VRes r] => need_addr (VRes r) (fun a => Ret (VStr (addr_to_string a))) | _ => Stuck end else
  if String.eqb x "dict" then match vs with [] => Ret (VDict []) | _ => Stuck end else
  if String.eqb x "isinstance" then
    match vs with [VJson j; VBuiltin t] => if String.eqb t "int" then Ret (VBool (json_is_int j)) else Stuck | _ => Stuck end else
  if String.eqb x "json_loads" then
    match vs with [VText d] => Need (data_object d) (fun m => Ret (VJObj m)) | _ => Stuck end else
  if String.eqb x "json_dumps" then
    match vs with [VDict l] => match dumps l with Some m => Ret (VText (DJson m)) | None => Stuck end | _ => Stuck end else
  if String.eqb x "ProxyScore" then match vs with [VClass m k] => Ret (VIface m k) | _ => Stuck end else
  if String.eqb x "create_interface_score" then
    match vs with
    | [a; VIface m k] => need_addr a (fun a => Ret (VProxy a "abstractmethod" m k))
    | [a; VClass m k] => need_addr a (fun a => Ret (VProxy a "interface" m k))
    | _ => Stuck end else Stuck.
(* a[i] *)
Definition subscript (v i : value) : act value :=
  match v with
  | VDictDB key => dict_get key i
  | VConns => need_addr i (fun a => Ret (VConn a))
  | VArrayDB key =>
      if String.eqb key "connector_tokens" then
        need_int i (fun i => Get (fun sc => Need (conn_token sc i) (fun a => Ret (VAddr a))))
      else Stuck
  | VList l => need_int i (fun i => Cond (i <? 0) Stuck (Need (l !! Z.to_nat i) (fun u => Ret u)))
  | VDict l => match i with VStr k => match assoc k l with Some u => Ret u | None => Fail "KeyError" end | _ => Stuck end
  | VJObj m => match i with VStr k => Need (field m k) (fun j => Ret (VJson j)) | _ => Stuck end
  | VRes r => match i with
              | VStr k => if String.eqb k "amount" then Need (rv_amount r) (fun a => Ret (VInt a)) else Stuck
              | _ => Stuck end
  | _ => Stuck
  end.
(* v[i] = u, for a list or dictionary in a variable *)
Definition put_item (v i u : value) : option value :=
  match v, i with
  | VList l, VInt z => if (0 <=? z) && (z <? Z.of_nat (List.length l)) then Some (VList (<[Z.to_nat z := u]> l)) else None
  | VDict l, VStr k => Some (VDict (update k u l))
  | _, _ => None
  end.

(* ------------------------------------------------------------ names, classes ---- *)
Fixpoint find_fun (x : string) (l : list fundef) : option fundef :=
  match l with [] => None | f :: l => if String.eqb x (f_name f) then Some f else find_fun x l end.
Fixpoint find_class (x : string) (l : list classdef) : option classdef :=
  match l with [] => None | k :: l => if String.eqb x (k_name k) then Some k else find_class x l end.
Fixpoint find_module (x : string) (l : list module) : option module :=
  match l with [] => None | m :: l => if String.eqb x (m_path m) then Some m else find_module x l end.

Inductive gdef := GFun (m : string) (f : fundef) | GClass (m : string) (k : classdef) | GExpr (m : string) (e : expr) | GExt (x : string).
(* what the name x means in module m: a definition, an import, a star import, or a name of Python or iconservice *)
Fixpoint resolve (n : nat) (m x : string) : option gdef :=
  match n with
  | O => None
  | S n =>
      match find_module m program with
      | None => None
      | Some md =>
          match find_fun x (m_funs md) with Some f => Some (GFun m f) | None =>
          match find_class x (m_classes md) with Some k => Some (GClass m k) | None =>
          match assoc x (m_assigns md) with Some e => Some (GExpr m e) | None =>
          match assoc x (m_imports md) with
          | Some (m', x') => match find_module m' program with Some _ => resolve n m' x' | None => Some (GExt x') end
          | None => (fix stars (l : list string) := match l with
                     | [] => None
                     | s :: l => match resolve n s x with Some g => Some g | None => stars l end end) (m_stars md)
          end end end end
      end
  end.
Definition global (m x : string) : gdef := match resolve 4 m x with Some g => g | None => GExt x end.

(* the classes of the program are named by module and name, those of iconservice by "" and name *)
Notation cls := (string * string)%type.
Definition cls_eqb (a b : cls) : bool := String.eqb a.1 b.1 && String.eqb a.2 b.2.
(* Python's method resolution order: C3 linearization *)
Definition in_tail (x : cls) (l : list cls) : bool := match l with [] => false | _ :: l => existsb (cls_eqb x) l end.
Fixpoint pick (all ls : list (list cls)) : option cls :=
  match ls with
  | [] => None
  | [] :: ls => pick all ls
  | (x :: _) :: ls => if existsb (in_tail x) all then pick all ls else Some x
  end.
Definition drop_head (x : cls) (l : list cls) : list cls := match l with y :: l' => if cls_eqb x y then l' else l | [] => [] end.
Fixpoint merge (n : nat) (ls : list (list cls)) : option (list cls) :=
  match n with
  | O => None
  | S n =>
      if forallb (fun l => match l with [] => true | _ => false end) ls then Some []
      else match pick ls ls with
           | Some x => match merge n (map (drop_head x) ls) with Some r => Some (x :: r) | None => None end
           | None => None
           end
  end.
Definition base_of (m : string) (e : expr) : option cls :=
  match e with
  | EName b => match global m b with GClass m' k => Some (m', k_name k) | GExt x => Some ("", x) | _ => None end
  | _ => None
  end.
Definition class_of (k : cls) : option classdef := match find_module k.1 program with Some md => find_class k.2 (m_classes md) | None => None end.
Fixpoint mro (n : nat) (k : cls) : option (list cls) :=
  match n with
  | O => None
  | S n =>
      match class_of k with
      | None => Some [k]
      | Some d =>
          match mapM (base_of k.1) (k_bases d) with
          | Some bs => match mapM (mro n) bs with
                       | Some ls => match merge 50 (ls ++ [bs]) with Some r => Some (k :: r) | None => None end
                       | None => None end
          | None => None
          end
      end
  end.

Definition has_deco (x : string) (f : fundef) : bool :=
  existsb (fun d => match d with EName y => String.eqb x y | ECall (EName y) _ _ => String.eqb x y | _ => false end) (f_decos f).
Definition all_classes : list cls := concat (map (fun md => map (fun k => (m_path md, k_name k)) (m_classes md)) program).
(* interface SCOREs.  ProxyScore(k) makes functions of the abstract methods of k, inherited ones included (proxy_score.py:35-57, ProxyModel.v);
   a subclass of InterfaceScore has the functions decorated with @interface *)
Definition own_methods (k : cls) : list fundef := match class_of k with Some d => k_methods d | None => [] end.
Definition all_methods (k : cls) : list fundef := match mro 10 k with Some l => concat (map own_methods l) | None => [] end.
Definition interface_functions (d : string) (k : cls) : list string :=
  let l := all_methods k in
  filter (fun x => match find_fun x l with Some f => has_deco d f | None => false end = true) (map f_name l).
Definition is_interface (k : cls) : bool := match mro 10 k with Some l => existsb (cls_eqb ("", "InterfaceScore")) l | None => false end.
Definition interface_table : list (cls * (list string * list string)) := Eval vm_compute in
  map (fun k => (k, (interface_functions "abstractmethod" k, if is_interface k then interface_functions "interface" k else []))) all_classes.
Lemma interface_table_eq : interface_table =
  map (fun k => (k, (interface_functions "abstractmethod" k, if is_interface k then interface_functions "interface" k else []))) all_classes.
Proof. vm_compute. reflexivity. Qed.
Definition offers (d : string) (k : cls) (x : string) : bool :=
  (fix go l := match l with
     | [] => false
     | (k', (ab, it)) :: l => if cls_eqb k k' then existsb (String.eqb x) (if String.eqb d "abstractmethod" then ab else it) else go l
     end) interface_table.

(* the storage classes of the converter (converter.py:37-72): ConnectorDict makes one object of its item class for each address, over a
   database of its own (get_sub_db), and that object has the database variables of its __init__.
   The name of the item class, if the two methods read as they do; the cache _items has no effect *)
Definition item_class (d : classdef) : option string :=
  match find_fun "__init__" (k_methods d), find_fun "__getitem__" (k_methods d) with
  | Some i, Some g =>
      match f_params i, f_body i, f_params g, f_body g with
      | [_; (db, _)], [SAssign [EAttr (EName s1) d1] (EName db'); SAssign [EAttr (EName s2) items] (EDictL [])],
        [(self, _); (key, _)],
        [SIf (ECompare (EName k1) [(CNotIn, EAttr (EName s3) i1)])
           [SAssign [EName sub] (ECall (EAttr (EAttr (EName s4) d2) get) [ECall (EAttr (EBytes _) join) [EListL [EName _; ECall (EAttr (EName k2) tob) [] []]] []] []);
            SAssign [ESub (EAttr (EName s5) i2) (EName k3)] (ECall (EName item) [EName sub'] [])] [];
         SReturn (Some (ESub (EAttr (EName s6) i3) (EName k4)))] =>
          if forallb (fun p => String.eqb p.1 p.2)
               [(db, db'); (s1, self); (s2, self); (s3, self); (s4, self); (s5, self); (s6, self); (k1, key); (k2, key); (k3, key); (k4, key);
                (d1, d2); (i1, items); (i2, items); (i3, items); (sub, sub'); (get, "get_sub_db"); (join, "join"); (tob, "to_bytes")]
          then Some item else None
      | _, _, _, _ => None
      end
  | _, _ => None
  end.
(* the types of the database variables *)
Definition db_type (key : string) : string :=
  if existsb (String.eqb key) ["virtual_balance"; "weight"; "total_supply"; "decimals"; "balances"; "total_connector_weight"; "max_conversion_fee"; "conversion_fee"] then "int" else
  if existsb (String.eqb key) ["is_virtual_balance_enabled"; "is_purchase_enabled"; "is_set"; "transfer_possibility"; "allow_registry_update"; "conversions_enabled"; "icx_tokens"] then "bool" else
  if existsb (String.eqb key) ["name"; "symbol"; "version"] then "str" else
  if existsb (String.eqb key) ["prev_owner"; "new_owner"; "manager"; "new_manager"; "token"; "registry"; "prev_registry"; "connector_tokens"; "score_address"] then "Address" else "".
(* the type named in VarDB(key, db, type) or VarDB(key, db, value_type=type) is the type of the key *)
Definition has_type (key : string) (xs : list expr) (kw : list (string * expr)) : bool :=
  match xs, kw with
  | [_; _; EName t], [] => String.eqb t (db_type key)
  | [_; _], [(v, EName t)] => String.eqb v "value_type" && String.eqb t (db_type key)
  | _, _ => false
  end.
Fixpoint item_keys (ss : list stmt) : option (list (string * string)) :=
  match ss with
  | [] => Some []
  | SAssign [EAttr (EName s) a] (ECall (EName t) (EStr key :: xs) kw) :: ss =>
      if String.eqb s "self" && String.eqb t "VarDB" && has_type key (EStr key :: xs) kw
      then match item_keys ss with Some l => Some ((a, key) :: l) | None => None end else None
  | _ => None
  end.
Definition connector_keys : list (string * string) := Eval vm_compute in
  match class_of ("converter.converter", "ConnectorDict") with
  | Some d => match item_class d with
              | Some item => match class_of ("converter.converter", item) with
                             | Some k => match find_fun "__init__" (k_methods k) with
                                         | Some f => match item_keys (f_body f) with Some l => l | None => [] end
                                         | None => [] end
                             | None => [] end
              | None => [] end
  | None => []
  end.

(* -------------------------------------------------------------- interpreter ---- *)
(* every handler of a try does nothing but revert *)
Definition all_revert (hs : list (list stmt)) : bool :=
  forallb (fun h => match h with [SExpr (ECall (EName x) _ _)] => String.eqb x "revert" | _ => false end) hs.

Inductive outcome := Next | Return (v : value).
(* bind the targets of a comprehension *)
Definition bind_targets (xs : list string) (v : value) (e : env) : option env :=
  match xs, v with
  | [x], _ => Some (update x v e)
  | [x; y], VTuple [a; b] => Some (update y b (update x a e))
  | _, _ => None
  end.

Section interp.
Variable c : ctx.
(* the object self: its classes in resolution order and its database variables *)
Variable order : list cls.
Variable attrs : env.
(* the names assigned in class bodies *)
Variable names : cls -> env.
(* the methods of the object [formula] *)
Variable inst : string -> list value -> act value.

(* look a name up in a list of classes *)
Fixpoint in_classes (l : list cls) (x : string) (bound : bool) : option value :=
  match l with
  | [] => None
  | k :: l =>
      match class_of k with
      | None => if String.eqb k.2 "IconScoreBase" && (String.eqb x "on_install" || String.eqb x "on_update") then Some (VBound (VBuiltin k.2) x) else in_classes l x bound
      | Some d =>
          match find_fun x (k_methods d) with
          | Some f => Some (VClos k.1 l f (bound && negb (has_deco "staticmethod" f)))
          | None => match assoc x (names k) with Some v => Some v | None => in_classes l x bound end
          end
      end
  end.
Definition of_value (o : option value) : act value := match o with Some v => Ret v | None => Stuck end.
(* v.x; [tail]: the classes after the one whose method runs, for super() *)
Definition attribute (tail : list cls) (v : value) (x : string) : act value :=
  match v with
  | VSelf =>
      if String.eqb x "msg" then Ret VMsg else
      if String.eqb x "icx" then Ret VIcx else
      if String.eqb x "address" then Ret (VAddr (c_self c)) else
      if String.eqb x "create_interface_score" then Ret (VBuiltin x) else
      match assoc x attrs with Some u => Ret u | None => of_value (in_classes order x true) end
  | VMsg => if String.eqb x "sender" then Ret (VAddr (c_sender c)) else if String.eqb x "value" then Ret (VInt (c_value c)) else Stuck
  | VSuper => of_value (in_classes tail x true)
  | VClass m k => match mro 10 (m, k) with Some l => of_value (in_classes l x false) | None => Stuck end
  | VIface m k => match mro 10 (m, k) with Some l => of_value (in_classes l x false) | None => Stuck end
  | VAddr a => if String.eqb x "is_contract" then Ret (VBool (is_contract a)) else Stuck
  | VConn a => match assoc x connector_keys with Some key => Ret (VConnVar a key) | None => Stuck end
  | VProxy _ d m k => if offers d (m, k) x then Ret (VBound v x) else Stuck
  | _ => Ret (VBound v x)
  end.
Definition items (v : value) : option (list value) :=
  match v with VList l => Some l | VRange a b s => Some (map VInt (range_list a b s)) | _ => None end.

Fixpoint eval (n : nat) (m : string) (tail : list cls) (e : env) (x : expr) {struct n} : act value :=
  match n with
  | O => Stuck
  | S n =>
      let evals := fix evals (xs : list expr) : act (list value) :=
        match xs with [] => Ret [] | x :: xs => v <- eval n m tail e x; vs <- evals xs; Ret (v :: vs) end in
      match x with
      | EInt z => Ret (VInt z) | EStr s => Ret (VStr s) | EBytes s => Ret (VBytes (DRaw s)) | EBool b => Ret (VBool b) | ENone => Ret VNone
      | EName y =>
          match assoc y e with
          | Some v => Ret v
          | None => match global m y with
                    | GFun m' f => Ret (VClos m' [] f false)
                    | GClass m' k => Ret (VClass m' (k_name k))
                    | GExpr m' x' => eval n m' [] [] x'
                    | GExt y => if String.eqb y "ZERO_SCORE_ADDRESS" then Ret (VAddr zero_score) else Ret (VBuiltin y)
                    end
          end
      | EAttr x a => v <- eval n m tail e x; attribute tail v a
      | ECall f xs kw =>
          fv <- eval n m tail e f; vs <- evals xs;
          ks <- (fix kws (l : list (string * expr)) : act env := match l with [] => Ret [] | (k, x) :: l => v <- eval n m tail e x; r <- kws l; Ret ((k, v) :: r) end) kw;
          call n m tail fv vs ks
      | EBin op a b => va <- eval n m tail e a; vb <- eval n m tail e b; binop_val op va vb
      | ENot a => v <- eval n m tail e a; match v with VBool b => Ret (VBool (negb b)) | _ => Stuck end
      | ENeg a => v <- eval n m tail e a; need_int v (fun z => Ret (VInt (- z)))
      | ECompare a rest =>
          va <- eval n m tail e a;
          (fix chain (va : value) (l : list (cmpop * expr)) : act value :=
             match l with
             | [] => Stuck
             | (op, b) :: l =>
                 vb <- eval n m tail e b; r <- cmp_sem op va vb;
                 match l with [] => Ret r | _ => branch r (chain vb l) (Ret (VBool false)) end
             end) va rest
      | EAndL xs => (fix conj (l : list expr) : act value := match l with [] => Stuck | [x] => eval n m tail e x
                       | x :: l => v <- eval n m tail e x; branch v (conj l) (Ret (VBool false)) end) xs
      | EOrL xs => (fix disj (l : list expr) : act value := match l with [] => Stuck | [x] => eval n m tail e x
                       | x :: l => v <- eval n m tail e x; branch v (Ret (VBool true)) (disj l) end) xs
      | EIf b x y => v <- eval n m tail e b; branch v (eval n m tail e x) (eval n m tail e y)
      | ESub a i => va <- eval n m tail e a; vi <- eval n m tail e i; subscript va vi
      | EListL xs => vs <- evals xs; Ret (VList vs)
      | ETupleL xs => vs <- evals xs; Ret (VTuple vs)
      | EDictL l => kv <- (fix kvs (l : list (expr * expr)) : act env := match l with [] => Ret []
                       | (k, x) :: l => vk <- eval n m tail e k; v <- eval n m tail e x; r <- kvs l; match vk with VStr k => Ret ((k, v) :: r) | _ => Stuck end end) l; Ret (VDict kv)
      | EListComp x ts it conds =>
          vi <- eval n m tail e it;
          match items vi with Some l => vs <- comp n m tail e x ts conds l; Ret (VList vs) | None => Stuck end
      | ESetComp x ts it conds =>
          vi <- eval n m tail e it;
          match items vi with Some l => vs <- comp n m tail e x ts conds l; Ret (VSet vs) | None => Stuck end
      | ELambda ps b => Ret (VLam m tail e ps b)
      | EFString => Ret (VStr "")
      end
  end
(* the elements of a comprehension *)
with comp (n : nat) (m : string) (tail : list cls) (e : env) (x : expr) (ts : list string) (conds : list expr) (l : list value) {struct n} : act (list value) :=
  match n with
  | O => Stuck
  | S n =>
      (fix each (l : list value) : act (list value) :=
         match l with
         | [] => Ret []
         | v :: l =>
             match bind_targets ts v e with
             | None => Stuck
             | Some e' =>
                 match conds with
                 | [] => u <- eval n m tail e' x; us <- each l; Ret (u :: us)
                 | [b] => vb <- eval n m tail e' b; branch vb (u <- eval n m tail e' x; us <- each l; Ret (u :: us)) (each l)
                 | _ => Stuck
                 end
             end
         end) l
  end
(* a function value applied *)
with call (n : nat) (m : string) (tail : list cls) (f : value) (vs : list value) (ks : env) {struct n} : act value :=
  match n with
  | O => Stuck
  | S n =>
      match f with
      | VClos m' tail' d bound =>
          if has_deco "eventlog" d then match ks with [] => log_event (f_name d) vs | _ => Stuck end
          else
            e <- (fix params (ps : list (string * option expr)) (vs : list value) : act env :=
                    match ps, vs with
                    | [], [] => Ret []
                    | [], _ :: _ => Fail "TypeError"
                    | (p, _) :: ps, v :: vs => r <- params ps vs; Ret ((p, v) :: r)
                    | (p, dflt) :: ps, [] =>
                        r <- params ps [];
                        match assoc p ks, dflt with
                        | Some v, _ => Ret ((p, v) :: r)
                        | None, Some x => v <- eval n m' [] [] x; Ret ((p, v) :: r)
                        | None, None => Fail "TypeError"
                        end
                    end) (f_params d) (if bound then VSelf :: vs else vs);
            r <- exec n m' tail' e (f_body d);
            match r.1 with Return v => Ret v | Next => Ret VNone end
      | VLam m' tail' e ps b =>
          match ps, vs with [p], [v] => eval n m' tail' (update p v e) b | _, _ => Stuck end
      | VClass m' k => match vs with [] => Ret (VInst m' k) | _ => Stuck end    (* formula = FixedMapFormula() *)
      | VBuiltin x =>
          if String.eqb x "super" then Ret VSuper else
          if String.eqb x "map" then
            match vs with
            | [g; VList l] => us <- (fix each (l : list value) : act (list value) := match l with [] => Ret [] | v :: l => u <- call n m tail g [v] []; us <- each l; Ret (u :: us) end) l; Ret (VList us)
            | _ => Stuck end else
          builtin_call x vs
      | VBound (VInst _ _) x => inst x vs
      | VBound v x => bound_call v x vs
      | _ => Stuck
      end
  end
(* a block of statements: how it ends, and the variables after it *)
with exec (n : nat) (m : string) (tail : list cls) (e : env) (ss : list stmt) {struct n} : act (outcome * env) :=
  match n with
  | O => Stuck
  | S n =>
      match ss with
      | [] => Ret (Next, e)
      | s :: ss =>
          r <- step n m tail e s;
          match r.1 with Next => exec n m tail r.2 ss | Return v => Ret r end
      end
  end
with step (n : nat) (m : string) (tail : list cls) (e : env) (s : stmt) {struct n} : act (outcome * env) :=
  match n with
  | O => Stuck
  | S n =>
      match s with
      | SExpr x => _ <- eval n m tail e x; Ret (Next, e)
      | SPass => Ret (Next, e)
      | SReturn None => Ret (Return VNone, e)
      | SReturn (Some x) => v <- eval n m tail e x; Ret (Return v, e)
      | SAssign ts x => v <- eval n m tail e x; e' <- (fix each (ts : list expr) (e : env) : act env := match ts with [] => Ret e | t :: ts => e' <- assign n m tail e t v; each ts e' end) ts e; Ret (Next, e')
      | SAug t op x =>
          match t with
          | EName y => match assoc y e with Some u => v <- eval n m tail e x; w <- binop_val op u v; Ret (Next, update y w e) | None => Stuck end
          | ESub a i =>
              va <- eval n m tail e a; vi <- eval n m tail e i;
              match va with
              | VDictDB key => u <- dict_get key vi; v <- eval n m tail e x; w <- binop_val op u v; _ <- dict_set key vi w; Ret (Next, e)
              | _ => Stuck end
          | _ => Stuck
          end
      | SIf b th el => v <- eval n m tail e b; branch v (exec n m tail e th) (exec n m tail e el)
      | SWhile b body =>
          v <- eval n m tail e b;
          branch v (r <- exec n m tail e body; match r.1 with Next => step n m tail r.2 (SWhile b body) | Return _ => Ret r end) (Ret (Next, e))
      | SFor y it body =>
          vi <- eval n m tail e it;
          match items vi with Some l => loop n m tail e y body l | None => Stuck end
      | SDel x =>
          match x with
          | ESub a i => va <- eval n m tail e a; vi <- eval n m tail e i;
                        match va with VDictDB key => _ <- dict_del key vi; Ret (Next, e) | _ => Stuck end
          | _ => Stuck
          end
      | STry body hs => if all_revert hs then exec n m tail e body else Stuck
      end
  end
(* for y in l: body *)
with loop (n : nat) (m : string) (tail : list cls) (e : env) (y : string) (body : list stmt) (l : list value) {struct n} : act (outcome * env) :=
  match n with
  | O => Stuck
  | S n =>
      (fix each (e : env) (l : list value) : act (outcome * env) :=
         match l with
         | [] => Ret (Next, e)
         | v :: l => r <- exec n m tail (update y v e) body; match r.1 with Next => each r.2 l | Return _ => Ret r end
         end) e l
  end
(* target = v *)
with assign (n : nat) (m : string) (tail : list cls) (e : env) (t : expr) (v : value) {struct n} : act env :=
  match n with
  | O => Stuck
  | S n =>
      match t with
      | EName y => Ret (update y v e)
      | ETupleL [EName x; EName y] => match v with VTuple [a; b] => Ret (update y b (update x a e)) | _ => Stuck end
      | ESub (EName y) i =>
          vi <- eval n m tail e i;
          match assoc y e with Some u => match put_item u vi v with Some u' => Ret (update y u' e) | None => Stuck end | None => Stuck end
      | ESub a i =>
          va <- eval n m tail e a; vi <- eval n m tail e i;
          match va with VDictDB key => _ <- dict_set key vi v; Ret e | _ => Stuck end
      | _ => Stuck
      end
  end.

(* the method x of self, applied *)
Definition method (n : nat) (x : string) (vs : list value) : act value :=
  match in_classes order x true with Some f => call n "" [] f vs [] | None => Fail "AttributeError" end.
End interp.

(* ------------------------------------------------------ classes as they load ---- *)
Definition no_ctx : ctx := Ctx zero_score zero_score 0 false.
(* the names assigned by a class body *)
Definition body_names (k : cls) : env :=
  match class_of k with
  | Some d => match exec no_ctx [] [] (fun _ => []) (fun _ _ => Stuck) 300 k.1 [] [] (k_stmts d) with Ret (Next, e) => e | _ => [] end
  | None => []
  end.
Fixpoint lookup_cls (k : cls) (l : list (cls * env)) : env :=
  match l with [] => [] | (k', e) :: l => if cls_eqb k k' then e else lookup_cls k l end.
Definition names_table : list (cls * env) := Eval vm_compute in filter (fun p => p.2 <> []) (map (fun k => (k, body_names k)) all_classes).
Definition names (k : cls) : env := lookup_cls k names_table.
Lemma names_table_eq : names_table = filter (fun p => p.2 <> []) (map (fun k => (k, body_names k)) all_classes).
Proof. vm_compute. reflexivity. Qed.

(* __init__: the attributes of self, which are all databases.  l: the classes in resolution order *)
Definition db_key (l : list cls) (x : expr) : option string :=
  match x with
  | EStr s => Some s
  | EAttr (EName y) a => if String.eqb y "self" then match in_classes names l a true with Some (VStr s) => Some s | _ => None end else None
  | _ => None
  end.
Definition new_db (l : list cls) (x : expr) : option value :=
  match x with
  | ECall (EName t) (k :: xs) kw =>
      if String.eqb t "ConnectorDict" then Some VConns else
      match db_key l k with
      | None => None
      | Some s =>
          if negb (has_type s (k :: xs) kw) then None else
          if String.eqb t "VarDB" then Some (VVarDB s) else
          if String.eqb t "DictDB" then Some (VDictDB s) else
          if String.eqb t "ArrayDB" then Some (VArrayDB s) else None
      end
  | _ => None
  end.
Fixpoint init_stmts (all : list cls) (before : option env) (ss : list stmt) : option env :=
  match ss with
  | [] => Some []
  | SExpr (ECall (EAttr (ECall (EName s) [] []) i) [EName _] []) :: ss =>
      if String.eqb s "super" && String.eqb i "__init__" then
        match before, init_stmts all before ss with Some e, Some e' => Some (e ++ e') | _, _ => None end
      else None
  | SAssign [EAttr (EName y) a] x :: ss =>
      if String.eqb y "self" then match new_db all x, init_stmts all before ss with Some v, Some e => Some ((a, v) :: e) | _, _ => None end
      else None
  | _ :: _ => None
  end.
Fixpoint init (all l : list cls) : option env :=
  match l with
  | [] => Some []
  | k :: l' =>
      match class_of k with
      | Some d => match find_fun "__init__" (k_methods d) with Some f => init_stmts all (init all l') (f_body f) | None => init all l' end
      | None => init all l'
      end
  end.

(* the contract classes; the package name of the class IRCToken is irc_token and so on *)
Definition class_of_kind (k : kind) : option cls :=
  match k with
  | KIrc => Some ("irc_token.irc_token", "IRCToken")
  | KIcx => Some ("icx_token.icx_token", "IcxToken")
  | KFlex => Some ("flexible_token.flexible_token", "FlexibleToken")
  | KConv => Some ("converter.converter", "Converter")
  | KNet => Some ("network.network", "Network")
  | KReg => Some ("score_registry.score_registry", "ScoreRegistry")
  | KAdv => None
  end.
Definition formula_class : cls := ("formula.fixed_map_formula", "FixedMapFormula").
Definition order_of (k : cls) : list cls := match mro 10 k with Some l => l | None => [] end.
Definition attrs_of (k : cls) : env := match init (order_of k) (order_of k) with Some e => e | None => [] end.

(* a method of the object [formula] (formula/__init__.py): it has no attributes and only computes *)
Definition formula_method (x : string) (vs : list value) : act value :=
  method no_ctx (order_of formula_class) [] names (fun _ _ => Stuck) 200 x vs.
Definition int_result (r : result value) : result Z := match r with Done (VInt z) => Done z | Failed => Failed | _ => NoMeaning end.
Definition formula_result (x : string) (vs : list value) : result Z := int_result (run (formula_method x vs)).
Definition formula_object (x : string) (vs : list value) : act value := Sub (formula_result x vs) (fun z => Ret (VInt z)).
