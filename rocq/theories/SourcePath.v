(* The network's paths: their source, interpreted, is the model of World.v. *)
From Coq Require Import String ZArith Lia.
From stdpp Require Import base countable list numbers strings gmap.
From Verif Require Import Res PySyntax PySource Codec World PySemantics SourceBase SourceSteps.
Local Open Scope string_scope.
Local Open Scope list_scope.
Local Open Scope Z_scope.
Notation Net := ("network.network", "Network").
Notation ncall c := (PySemantics.call c (order_of Net) (attrs_of Net) names formula_object).
Notation neval c := (PySemantics.eval c (order_of Net) (attrs_of Net) names formula_object).
Notation nexec c := (PySemantics.exec c (order_of Net) (attrs_of Net) names formula_object).

Definition tail_of (v : value) : list cls := match v with VClos _ t _ _ => t | _ => [] end.
(* as tree_in of SourceBase.v, with functions on lists left alone *)
Ltac long_in H := lazy -[Z.add Z.sub Z.mul Z.div Z.modulo Z.opp Z.pow Z.shiftl Z.shiftr Z.land Z.lor Z.leb Z.ltb Z.eqb
  same_addr same_maybe same_str same_data no_addr str_in distinct rv_int rv_addr rv_amount rv_none rv_is json_str json_is_int json_int json_null data_object field has_field no_fields put_field from_text
  put_bal icx_token put_icx_token registered put_registered del_registered put_conn_token conn_count conn_token put_virtual put_weight put_venabled put_penabled put_isset
  balance conn cn_virtual cn_weight cn_venabled cn_penabled cn_set is_contract zero_score c_sender c_self c_value addr_to_string strip split_comma formula_result
  s_name s_symbol s_decimals s_supply s_bal s_owner s_new_owner s_transferable s_manager s_new_manager s_token s_allow_reg s_registry s_prev_registry s_conn_tokens s_total_weight s_max_fee s_fee s_enabled s_connectors s_icx_tokens s_addrs
  set_name set_symbol set_decimals set_supply set_bal set_owner set_new_owner set_transferable set_manager set_new_manager set_token set_allow_reg set_registry set_prev_registry set_conn_tokens set_total_weight set_max_fee set_fee set_enabled set_connectors set_icx_tokens set_addrs
   List.length Z.of_nat Z.to_nat] in H.
Section equations.
Variables (c : ctx) (order : list cls) (attrs : env) (inst : string -> list value -> act value).
Notation eval := (PySemantics.eval c order attrs names inst).
Notation call := (PySemantics.call c order attrs names inst).
Notation exec := (PySemantics.exec c order attrs names inst).
Lemma denote_expr_call' {A} cl n m tail e f xs ss fv vs (k : outcome * env -> act A) w :
  eval n m tail e f = Ret fv -> denote cl c (evals c order attrs inst n m tail e xs) w = Done (vs, w) ->
  denote cl c (abind (exec (S (S (S n))) m tail e (SExpr (ECall f xs []) :: ss)) k) w =
  andthen (denote cl c (call n m tail fv vs []) w) (fun p => denote cl c (abind (exec (S (S n)) m tail e ss) k) p.2).
Proof.
  intros Ef Ex. rewrite denote_next, step_expr, denote_abind, eval_call, Ef, abind_ret, denote_abind, Ex. cbn [andthen fst snd].
  destruct (denote cl c (call n m tail fv vs []) w) as [[v w1]| |]; reflexivity.
Qed.
Lemma eval_compare1 n m tail e a op b :
  eval (S n) m tail e (ECompare a [(op, b)]) = abind (eval n m tail e a) (fun va => abind (eval n m tail e b) (fun vb => abind (cmp_sem op va vb) (fun r => Ret r))).
Proof. reflexivity. Qed.
End equations.
(* a function of a module *)
Definition closure_of (m x : string) : value := match global m x with GFun m' f => VClos m' [] f false | _ => VNone end.
Section path.
Variables (call : bool -> addr -> addr -> Z -> msg -> M rv) (c : ctx).
Notation denote := (denote call c).

(* _convert_path *)
Lemma strip_each n m tail m' tail' v l :
  map_each c (order_of Net) (attrs_of Net) formula_object (10 + n) m tail
    (VLam m' tail' [("path", v)] ["address"] (ECall (EAttr (EName "address") "strip") [] [])) (map VStr l) = Ret (map VStr (map strip l)).
Proof.
  induction l as [|s l IH]; [reflexivity|]. cbn [map]. 
  assert (H : ncall c (10 + n) m tail (VLam m' tail' [("path", v)] ["address"] (ECall (EAttr (EName "address") "strip") [] [])) [VStr s] [] = Ret (VStr (strip s))) by computed.
  cbn [map_each]. rewrite H, abind_ret. fold (map_each c (order_of Net) (attrs_of Net) formula_object). rewrite IH. reflexivity.
Qed.
Lemma address_each n tail v u l w :
  denote (comp_each c (order_of Net) (attrs_of Net) formula_object (10 + n) "network.network" tail [("path", v); ("converted_path", u)]
    (ECall (EAttr (EName "Address") "from_string") [EName "address"] []) ["address"] [] (map VStr l)) w =
  match mapM addr_from_string l with Some p => Done (map VAddr p, w) | None => Failed end.
Proof.
  induction l as [|s l IH]; [reflexivity|]. cbn [map].
  assert (H : neval c (10 + n) "network.network" tail [("path", v); ("converted_path", u); ("address", VStr s)] (ECall (EAttr (EName "Address") "from_string") [EName "address"] []) = Need (from_text s) (fun a => Ret (VAddr a))) by computed.
  cbn [comp_each bind_targets update String.eqb Ascii.eqb Bool.eqb]. rewrite H. fold (comp_each c (order_of Net) (attrs_of Net) formula_object).
  rewrite denote_abind, denote_need. unfold from_text. cbn [mapM]. destruct (addr_from_string s) as [a|]; [|reflexivity].
  rewrite denote_ret. cbn [andthen fst snd]. rewrite denote_abind, IH. cbn [mbind option_bind].
  destruct (mapM addr_from_string l); reflexivity.
Qed.
Definition path_of (v : value) : option string := match v with VStr s => Some s | VJson (JStr s) => Some s | _ => None end.
Lemma path_meth n m tail v w : (exists s, v = VStr s) \/ (exists j, v = VJson j) ->
  denote (ncall c (20 + n) m tail (closure Net "_convert_path") [v] []) w =
  match path_of v with Some s => match convert_path s with Some p => Done (VList (map VAddr p), w) | None => Failed end | None => Failed end.
Proof.
  intros V. cbn [Nat.add]. 
  let f := eval vm_compute in (closure Net "_convert_path") in change (closure Net "_convert_path") with f.
  rewrite call_static by reflexivity. cbn [f_params f_body zip_params].
  destruct (path_of v) as [s|] eqn:P.
  2: { destruct V as [[s ->]|[[] ->]]; try discriminate P; rewrite denote_assign_fail with (fv := VBuiltin "map"); try reflexivity; vm_compute; reflexivity. }
  rewrite denote_assign_call' with (fv := VBuiltin "map")
    (vs := [VLam "network.network" (tail_of (closure Net "_convert_path")) [("path", v)] ["address"] (ECall (EAttr (EName "address") "strip") [] []); VList (map VStr (split_comma s))]).
  2: vm_compute; reflexivity.
  2: { destruct V as [[s' ->]|[[] ->]]; try discriminate P; injection P as ->; tree; reflexivity. }
  cbn [Nat.add]. rewrite call_map, denote_abind. rewrite (strip_each (5 + n)), denote_ret. cbn [andthen fst snd]. rewrite denote_ret. cbn [andthen fst snd].
  match goal with |- context [denote (assign ?a ?b ?d ?e ?f ?g ?h ?i ?j ?k ?l) ?w] => change (assign a b d e f g h i j k l) with (Ret [("path", v); ("converted_path", l)]) end.
  rewrite denote_ret. cbn [andthen fst snd].
  rewrite denote_next, step_return, denote_abind, eval_list_comp.
  match goal with |- context [abind (eval ?a ?b ?d ?e ?f ?g ?h ?i ?j ?k) _] => change (eval a b d e f g h i j k) with (Ret (VList (map VStr (map strip (split_comma s))))) end.
  rewrite abind_ret. cbn [items]. rewrite denote_abind, (address_each (4 + n)). unfold convert_path.
  replace (mapM addr_from_string (map strip (split_comma s))) with (mapM (fun s => addr_from_string (strip s)) (split_comma s)).
  { destruct (mapM (fun s => addr_from_string (strip s)) (split_comma s)); reflexivity. }
  induction (split_comma s) as [|x l IH]; [reflexivity|]. cbn [mapM map]. rewrite IH. reflexivity.
Qed.

(* _require_valid_path *)
Fixpoint odd_from (i : Z) (p : list addr) : list addr :=
  match p with [] => [] | a :: p => if i mod 2 =? 1 then a :: odd_from (i + 1) p else odd_from (i + 1) p end.
Lemma odd_each n tail i p w z l :
  denote (comp_each c (order_of Net) (attrs_of Net) formula_object (10 + n) "network.network" tail [("self", VSelf); ("path", VList l); ("path_len", VInt z)]
    (EName "address") ["i"; "address"] [ECompare (EBin BMod (EName "i") (EInt 2)) [(CEq, EInt 1)]] (enumerate i (map VAddr p))) w =
  Done (map VAddr (odd_from i p), w).
Proof.
  revert i. induction p as [|a p IH]; intros i; [reflexivity|]. cbn [map enumerate].
  assert (H : neval c (10 + n) "network.network" tail [("self", VSelf); ("path", VList l); ("path_len", VInt z); ("i", VInt i); ("address", VAddr a)]
     (ECompare (EBin BMod (EName "i") (EInt 2)) [(CEq, EInt 1)]) = Cond (2 =? 0) (Fail "ZeroDivisionError") (Ret (VBool (i mod 2 =? 1)))) by computed.
  assert (H' : neval c (10 + n) "network.network" tail [("self", VSelf); ("path", VList l); ("path_len", VInt z); ("i", VInt i); ("address", VAddr a)]
     (EName "address") = Ret (VAddr a)) by computed.
  cbn [comp_each bind_targets update String.eqb Ascii.eqb Bool.eqb]. rewrite H, H'. fold (comp_each c (order_of Net) (attrs_of Net) formula_object).
  rewrite denote_abind, denote_cond, denote_ret. cbn [Z.eqb andthen fst snd branch]. rewrite denote_cond, abind_ret, denote_abind, IH. cbn [odd_from].
  destruct (i mod 2 =? 1); reflexivity.
Qed.
Lemma set_size_map p : set_size (map VAddr p) = Some (distinct p).
Proof.
  unfold set_size. replace (mapM _ (map VAddr p)) with (Some p); [reflexivity|].
  induction p as [|a p IH]; [reflexivity|]. cbn [map mapM]. rewrite <- IH. reflexivity.
Qed.
Lemma odd_from_positions p i : i mod 2 = 0 -> odd_from i p = odd_positions p.
Proof.
  assert (E : forall i, i mod 2 = 0 -> (i mod 2 =? 1) = false /\ ((i + 1) mod 2 =? 1) = true /\ (i + 1 + 1) mod 2 = 0).
  { intros k Hk. pose proof (Z.div_mod k 2). split; [|split].
    - apply Z.eqb_neq. lia.
    - apply Z.eqb_eq. symmetry. apply Z.mod_unique with (k / 2); lia.
    - symmetry. apply Z.mod_unique with (k / 2 + 1); lia. }
  remember (List.length p) as k eqn:Hk. revert p Hk i. induction (lt_wf k) as [k _ IH]. intros p -> i Hi.
  destruct p as [|a [|b p]]; [reflexivity| |]; destruct (E i Hi) as (E1 & E2 & E3); cbn [odd_from odd_positions]; rewrite E1; [reflexivity|]. rewrite E2.
  f_equal. apply (IH (List.length p)); [cbn; lia|reflexivity|exact E3].
Qed.
Lemma valid_path_Z p :
  valid_path p = let z := Z.of_nat (List.length p) in (2 <? z) && (z <=? 10 * 2 + 1) && (z mod 2 =? 1) && (distinct (odd_positions p) =? z / 2).
Proof.
  unfold valid_path, distinct. set (n := List.length p). set (k := size _).
  assert (B : forall (P : Prop) {D : Decision P} b, (P <-> b = true) -> bool_decide P = b).
  { intros P D b H. destruct b; [apply bool_decide_eq_true_2; tauto|apply bool_decide_eq_false_2; intros HP; apply H in HP; discriminate]. }
  cbv zeta. f_equal; [f_equal; [f_equal|]|].
  - apply B. rewrite Z.ltb_lt. lia.
  - apply B. rewrite Z.leb_le. lia.
  - apply B. rewrite Z.eqb_eq. change 2 with (Z.of_nat 2). rewrite <- Nat2Z.inj_mod. lia.
  - apply B. rewrite Z.eqb_eq. change 2 with (Z.of_nat 2). rewrite <- Nat2Z.inj_div. lia.
Qed.
Lemma valid_meth n m tail p w :
  denote (ncall c (30 + n) m tail (closure Net "_require_valid_path") [VList (map VAddr p)] []) w = if valid_path p then Done (VNone, w) else Failed.
Proof.
  rewrite valid_path_Z. cbv zeta. cbn [Nat.add]. enter Net "_require_valid_path".
  erewrite denote_assign_call; [| |reflexivity]; [|instantiate (1 := VBuiltin "len"); vm_compute; reflexivity].
  match goal with |- context [denote (PySemantics.call ?a ?b ?d ?e ?f ?g ?h ?i ?j ?k ?l) w] => change (PySemantics.call a b d e f g h i j k l) with (Ret (VInt (Z.of_nat (List.length (map VAddr p))))) end.
  rewrite denote_ret. cbn [andthen fst snd]. rewrite map_length. 
  remember (Z.of_nat (List.length p)) as z eqn:Hz. clear Hz.
  match goal with |- context [PySemantics.exec _ _ _ _ _ _ _ _ ?e _] => change e with [("self", VSelf); ("path", VList (map VAddr p)); ("path_len", VInt z)] end.
  remember (map VAddr p) as l eqn:Hl.
  next. destruct (2 <? z); [|reflexivity]. go. destruct (z <=? 10 * 2 + 1); [|reflexivity]. go.
  change (2 =? 0) with false. cbv iota. go. destruct (z mod 2 =? 1); [|reflexivity]. go. subst l.
  rewrite denote_next, step_assign, denote_abind, eval_set_comp.
  match goal with |- context [abind (eval ?a ?b ?d ?e ?f ?g ?h ?i ?j ?k) _] => change (eval a b d e f g h i j k) with (Ret (VList (enumerate 0 (map VAddr p)))) end.
  rewrite abind_ret. cbn [items]. rewrite denote_abind, (odd_each (13 + n)), odd_from_positions by reflexivity.
  cbn [andthen fst snd]. rewrite denote_ret. cbn [andthen fst snd]. rewrite denote_ret. cbn [andthen fst snd].
  match goal with |- context [update "path_set" ?x ?e] => change (update "path_set" x e) with [("self", VSelf); ("path", VList (map VAddr p)); ("path_len", VInt z); ("path_set", x)] end.
  rewrite denote_expr_call' with (fv := closure_of "network.network" "require") (vs := [VBool (distinct (odd_positions p) =? z / 2); VStr "do not support circular path"]).
  2: vm_compute; reflexivity.
  2: { cbn [evals]. rewrite denote_abind, eval_compare1, denote_abind, eval_call.
    match goal with |- context [abind (eval ?a ?b ?d ?e ?f ?g ?h ?i ?j ?k) _] => change (eval a b d e f g h i j k) with (Ret (VBuiltin "len")) end. rewrite abind_ret.
    match goal with |- context [abind (evals ?a ?b ?d ?e ?f ?g ?h ?i ?j) _] => change (evals a b d e f g h i j) with (Ret [VSet (map VAddr (odd_positions p))]) end. rewrite abind_ret.
    match goal with |- context [denote (PySemantics.call ?a ?b ?d ?e ?f ?g ?h ?i ?j ?k ?l) w] => change (PySemantics.call a b d e f g h i j k l) with (match set_size (map VAddr (odd_positions p)) with Some z => Ret (VInt z) | None => Stuck end) end.
    rewrite set_size_map, denote_ret. generalize (distinct (odd_positions p)). intros y. cbn [andthen fst snd]. tree. reflexivity. }
  set (b := distinct (odd_positions p) =? z / 2). clearbody b. tree. repeat run_step. destruct b; reflexivity.
Qed.
End path.
