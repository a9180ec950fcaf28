(* The contracts as their source text says, interpreted by PySemantics.v: message calls, deployment, transactions.
   Then the tools that compare the meaning of a method with the model of World.v. *)
From Coq Require Import String ZArith Lia.
From stdpp Require Import base countable list numbers strings gmap.
From Verif Require Import Res FormulaConsts FormulaModel PySyntax PySource Codec World PySemantics SourceFormula.
Local Open Scope string_scope.
Local Open Scope list_scope.
Local Open Scope Z_scope.

(* ------------------------------------------------- specification: the service ---- *)
(* the name of the method that a message asks for, and the arguments *)
Definition msg_call (m : msg) : option (string * list value) :=
  match m with
  | MFallback => Some ("fallback", [])
  | MGetOwner => Some ("getOwner", [])
  | MGetNewOwner => Some ("getNewOwner", [])
  | MTransferOwnership a => Some ("transferOwnerShip", [VAddr a])
  | MAcceptOwnership => Some ("acceptOwnerShip", [])
  | MGetManager => Some ("getManager", [])
  | MGetNewManager => Some ("getNewManager", [])
  | MTransferManagement a => Some ("transferManagement", [VAddr a])
  | MAcceptManagement => Some ("acceptManagement", [])
  | MName => Some ("name", [])
  | MSymbol => Some ("symbol", [])
  | MDecimals => Some ("decimals", [])
  | MTotalSupply => Some ("totalSupply", [])
  | MBalanceOf a => Some ("balanceOf", [VAddr a])
  | MTransfer to v None => Some ("transfer", [VAddr to; VInt v])
  | MTransfer to v (Some d) => Some ("transfer", [VAddr to; VInt v; VBytes d])
  | MDeposit => Some ("deposit", [])
  | MWithdraw v => Some ("withdraw", [VInt v])
  | MWithdrawTo v to => Some ("withdrawTo", [VInt v; VAddr to])
  | MDisableTransfer b => Some ("disableTransfer", [VBool b])
  | MGetVersion => Some ("getFlexibleTokenVersion", [])
  | MGetTransferPossibility => Some ("getTransferPossibility", [])
  | MIssue to v => Some ("issue", [VAddr to; VInt v])
  | MDestroy from v => Some ("destroy", [VAddr from; VInt v])
  | MWithdrawTokens t to v => Some ("withdrawTokens", [VAddr t; VAddr to; VInt v])
  | MIsActive => Some ("isActive", [])
  | MTransferTokenOwnership a => Some ("transferTokenOwnership", [VAddr a])
  | MAcceptTokenOwnership => Some ("acceptTokenOwnership", [])
  | MDisableTokenTransfers b => Some ("disableTokenTransfers", [VBool b])
  | MWithdrawFromToken t to v => Some ("withdrawFromToken", [VAddr t; VAddr to; VInt v])
  | MGetToken => Some ("getToken", [])
  | MTokenFallback from v d => Some ("tokenFallback", [VAddr from; VInt v; VBytes d])
  | MAddConnector t weight e => Some ("addConnector", [VAddr t; VInt weight; VBool e])
  | MUpdateConnector t weight e virtual => Some ("updateConnector", [VAddr t; VInt weight; VBool e; VInt virtual])
  | MDisableConnectorPurchases t b => Some ("disableConnectorPurchases", [VAddr t; VBool b])
  | MUpdateRegistry => Some ("updateRegistry", [])
  | MRestoreRegistry => Some ("restoreRegistry", [])
  | MDisableRegistryUpdate b => Some ("disableRegistryUpdate", [VBool b])
  | MDisableConversions b => Some ("disableConversions", [VBool b])
  | MSetConversionFee z => Some ("setConversionFee", [VInt z])
  | MIsAllowRegistryUpdate => Some ("isAllowRegistryUpdate", [])
  | MGetPreviousRegistry => Some ("getPreviousRegistry", [])
  | MGetRegistry => Some ("getRegistry", [])
  | MGetConnectorTokenCount => Some ("getConnectorTokenCount", [])
  | MGetMaxConversionFee => Some ("getMaxConversionFee", [])
  | MGetConversionFee => Some ("getConversionFee", [])
  | MIsConversionsEnabled => Some ("isConversionsEnabled", [])
  | MGetConnectorAt i => Some ("getConnectorAt", [VInt i])
  | MGetConnector t => Some ("getConnector", [VAddr t])
  | MGetConnectorBalance t => Some ("getConnectorBalance", [VAddr t])
  | MGetReturn from to v => Some ("getReturn", [VAddr from; VAddr to; VInt v])
  | MGetFinalAmount v magnitude => Some ("getFinalAmount", [VInt v; VInt magnitude])
  | MGetExpectedReturnByPath path v => Some ("getExpectedReturnByPath", [VStr path; VInt v])
  | MGetIcxTokenRegistered t => Some ("getIcxTokenRegistered", [VAddr t])
  | MRegisterIcxToken t b => Some ("registerIcxToken", [VAddr t; VBool b])
  | MConvert path z => Some ("convert", [VStr path; VInt z])
  | MConvertFor path z for_ => Some ("convertFor", [VStr path; VInt z; VAddr for_])
  | MGetAddress n => Some ("getAddress", [VStr n])
  | MGetScoreIds => Some ("getScoreIds", [])
  | MRegisterAddress n a => Some ("registerAddress", [VStr n; VAddr a])
  | MUnregisterAddress n => Some ("unregisterAddress", [VStr n])
  | MOther _ => None
  end.

(* the value that the caller gets *)
Definition strings (l : list value) : option (list string) := mapM (fun v => match v with VStr s => Some s | _ => None end) l.
Definition answer (v : value) : act rv :=
  match v with
  | VNone => Ret RNone
  | VInt z => Ret (RInt z)
  | VBool b => Ret (RBool b)
  | VStr s => Ret (RStr s)
  | VAddr a => Ret (RAddr a)
  | VMaybe o => Ret (match o with Some a => RAddr a | None => RNone end)
  | VList l => match strings l with Some ss => Ret (RStrs ss) | None => Stuck end
  | VDict [] => Ret (RConn None)
  | VDict [(k1, VInt amount); (k2, VInt fee)] =>
      if String.eqb k1 "amount" && String.eqb k2 "fee" then Ret (RRet amount fee) else Stuck
  | VDict [(k1, VInt virtual); (k2, VInt weight); (k3, VBool venabled); (k4, VBool penabled); (k5, VBool set)] =>
      if String.eqb k1 "virtualBalance" && String.eqb k2 "weight" && String.eqb k3 "isVirtualBalanceEnabled"
         && String.eqb k4 "isPurchaseEnabled" && String.eqb k5 "isSet"
      then Ret (RConn (Some (Connector virtual weight venabled penabled set))) else Stuck
  | _ => Stuck
  end.

(* the methods of a class, with those it inherits *)
Fixpoint find_method (l : list cls) (x : string) : option fundef :=
  match l with
  | [] => None
  | k :: l => match class_of k with
              | Some d => match find_fun x (k_methods d) with Some f => Some f | None => find_method l x end
              | None => find_method l x
              end
  end.
Definition method_of (k : cls) (x : string) : option fundef := find_method (order_of k) x.
(* @external(readonly=True) *)
Definition readonly_deco (f : fundef) : bool :=
  existsb (fun d => match d with
                    | ECall (EName y) [] [(a, EBool true)] => String.eqb y "external" && String.eqb a "readonly"
                    | _ => false end) (f_decos f).
(* may the service call the method: @external, or the @payable fallback for plain transfers *)
Definition callable (m : msg) (f : fundef) : bool :=
  match m with MFallback => has_deco "payable" f | _ => has_deco "external" f end.
(* Python makes no object of a class with an abstract method, and none whose __init__ fails; abc.ABC *)
Definition abstract (k : cls) (x : string) : bool := match method_of k x with Some f => has_deco "abstractmethod" f | None => false end.
Definition has_objects (k : cls) : bool :=
  match mro 10 k with Some _ => true | None => false end
  && match init (order_of k) (order_of k) with Some _ => true | None => false end
  && forallb (fun x => negb (abstract k x)) (map f_name (all_methods k)).
Definition object_classes : list cls := Eval vm_compute in filter (fun k => has_objects k = true) all_classes.   (* computed once *)
Lemma object_classes_eq : object_classes = filter (fun k => has_objects k = true) all_classes. Proof. vm_compute. reflexivity. Qed.
Definition instantiable (k : cls) : bool := existsb (cls_eqb k) object_classes.
Definition may_call (k : cls) (m : msg) : bool :=
  instantiable k &&
  match msg_call m with Some (x, _) => match method_of k x with Some f => callable m f | None => false end | None => false end.
Definition may_pay (k : cls) (m : msg) : bool :=
  match msg_call m with Some (x, _) => match method_of k x with Some f => has_deco "payable" f | None => false end | None => false end.
Definition only_reads (k : cls) (m : msg) : bool :=
  match msg_call m with Some (x, _) => match method_of k x with Some f => readonly_deco f | None => false end | None => false end.

Definition method_src (k : cls) (c : ctx) (x : string) (vs : list value) : act value :=
  method c (order_of k) (attrs_of k) names formula_object 100 x vs.

(* the method that the message asks for, run in the frame c *)
Definition handler_src (call : bool -> addr -> addr -> Z -> msg -> M rv) (k : cls) (c : ctx) (m : msg) (w : world) : result (rv * world) :=
  if may_call k m then
    match msg_call m with
    | Some (x, vs) => denote call c (abind (method_src k c x vs) answer) w
    | None => Failed
    end
  else Failed.

Definition to_M {A} (f : world -> result A) : world -> res A :=
  fun w => match f w with Done a => Ok a | _ => Err "" end.

Section spec.
Variable adv : adversary.

(* one message call: the value is moved, then the method runs.  Decorators decide what may be called, what may be paid,
   and what runs in a read-only context *)
Fixpoint exec_src (fuel : nat) (ro : bool) (s t : addr) (v : Z) (m : msg) (w : world) : result (rv * world) :=
  match fuel with
  | O => Failed
  | S f =>
      let sub := fun ro s t v m => to_M (exec_src f ro s t v m) in
      if ro && negb (v =? 0) then Failed else
      andthen (of_res (move_icx s t v w)) (fun p =>
      let w := p.2 in
      match t with
      | EOA _ => match m with MFallback => Done (RNone, w) | _ => Failed end
      | SCORE _ =>
          match w_scores w !! t with
          | None => Failed
          | Some sc =>
              match class_of_kind (s_kind sc) with
              | None => let c := Ctx t s v ro in of_res (run_prog sub c (adv t c m) w)
              | Some k =>
                  if negb (may_pay k m) && negb (v =? 0) then Failed else
                  if ro && negb (only_reads k m) then Failed else
                  handler_src sub k (Ctx t s v (ro || only_reads k m)) m w
              end
          end
      end)
  end.

(* the arguments of on_install *)
Definition install_args (i : install) : list value :=
  match i with
  | IIrc n s i d | IFlex n s i d => [VStr n; VStr s; VInt i; VInt d]
  | IConv t r f cn w => [VAddr t; VAddr r; VInt f; match cn with Some a => VAddr a | None => VNone end; VInt w]
  | _ => []
  end.
Definition run_tx_src (fuel : nat) (t : tx) (w : world) : result (rv * world) :=
  match t with
  | TCall n to v m => exec_src fuel false (EOA n) to v m w
  | TDeploy n a i =>
      if bool_decide (a = 0%N) then Failed
      else match w_scores w !! SCORE a with
           | Some _ => Failed
           | None =>
               let w := World (w_icx w) (<[SCORE a := World.blank (install_kind i)]> (w_scores w)) (w_log w) in
               match class_of_kind (install_kind i) with
               | None => Done (RNone, w)
               | Some k =>
                   if negb (instantiable k) then Failed else
                   let c := Ctx (SCORE a) (EOA n) 0 false in
                   andthen (denote (fun ro s t v m => to_M (exec_src fuel ro s t v m)) c (method_src k c "on_install" (install_args i)) w)
                     (fun p => Done (RNone, p.2))
               end
           end
  end.
(* account n replaces the code of the contract at address a by the same code: the service calls on_update.  (It asks that n deployed the
   contract; here n is anybody.) *)
Definition run_update_src (fuel : nat) (n a : N) (w : world) : result (rv * world) :=
  match w_scores w !! SCORE a with
  | None => Failed
  | Some sc =>
      match class_of_kind (s_kind sc) with
      | None => Failed
      | Some k =>
          if negb (instantiable k) then Failed else
          let c := Ctx (SCORE a) (EOA n) 0 false in
          andthen (denote (fun ro s t v m => to_M (exec_src fuel ro s t v m)) c (method_src k c "on_update" []) w)
            (fun p => Done (RNone, p.2))
      end
  end.
(* a failed transaction has no effect *)
Definition apply_tx_src (fuel : nat) (t : tx) (w : world) : world :=
  match run_tx_src fuel t w with Done (_, w') => w' | _ => w end.
Inductive reachable_src : world -> Prop :=
| src_genesis w : genesis w -> reachable_src w
| src_tx w fuel t : reachable_src w -> reachable_src (apply_tx_src fuel t w).
End spec.

(* ----------------------------------------------------------------- tools ---- *)
Lemma denote_abind {A B} call c (t : act A) (f : A -> act B) w :
  denote call c (abind t f) w = andthen (denote call c t w) (fun p => denote call c (f p.1) p.2).
Proof.
  revert w. induction t as [a|e| |b t IHt e IHe|X o k IH|k IH|g k IH|e k IH|to v m k IH|r k IH]; intros w; cbn [abind denote andthen]; try reflexivity.
  - destruct b; auto.
  - destruct o; auto.
  - destruct (this c w) as [[sc w1]|]; cbn [of_res andthen fst snd]; auto.
  - destruct (modify c g w) as [[sc w1]|]; cbn [of_res andthen fst snd]; auto.
  - cbn [of_res andthen emit]. auto.
  - destruct (call (c_ro c) (c_self c) to v m w) as [[sc w1]|]; cbn [of_res andthen fst snd]; auto.
  - destruct r; cbn [of_res andthen fst snd]; auto.
Qed.

(* calls that differ in error messages only *)
Lemma denote_calls {A} call1 call2 c (t : act A) w :
  (forall ro s t v m w, of_res (call1 ro s t v m w) = of_res (call2 ro s t v m w)) ->
  denote call1 c t w = denote call2 c t w.
Proof.
  intros H. revert w. induction t as [a|e| |b t IHt e IHe|X o k IH|k IH|g k IH|e k IH|to v m k IH|r k IH]; intros w; cbn [denote]; try reflexivity.
  - destruct b; auto.
  - destruct o; auto.
  - destruct (this c w) as [[sc w1]|]; cbn [of_res andthen fst snd]; auto.
  - destruct (modify c g w) as [[sc w1]|]; cbn [of_res andthen fst snd]; auto.
  - cbn [of_res andthen emit]. auto.
  - rewrite H. destruct (call2 (c_ro c) (c_self c) to v m w) as [[sc w1]|]; cbn [of_res andthen fst snd]; auto.
  - destruct r; cbn [of_res andthen fst snd]; auto.
Qed.
Lemma run_prog_calls call1 call2 c p w :
  (forall ro s t v m w, of_res (call1 ro s t v m w) = of_res (call2 ro s t v m w)) ->
  of_res (run_prog call1 c p w) = of_res (run_prog call2 c p w).
Proof.
  intros H. revert w. induction p as [r| |ro to v m k IH|ro to v m k IH|k IH|z k IH|a k IH|z k IH]; intros w; cbn [run_prog]; try reflexivity.
  - unfold bind. specialize (H (ro || c_ro c) (c_self c) to v m w).
    destruct (call1 _ _ _ _ _ _) as [[r1 w1]|], (call2 _ _ _ _ _ _) as [[r2 w2]|]; cbn [of_res] in H; try discriminate; [|reflexivity].
    injection H as -> ->. apply IH.
  - specialize (H (ro || c_ro c) (c_self c) to v m w).
    destruct (call1 _ _ _ _ _ _) as [[r1 w1]|], (call2 _ _ _ _ _ _) as [[r2 w2]|]; cbn [of_res] in H; try discriminate; [|apply IH].
    injection H as -> ->. apply IH.
  - unfold bind. destruct (this c w) as [[sc w1]|]; [apply IH|reflexivity].
  - unfold bind. destruct (require _ _ w) as [[sc w1]|]; [|reflexivity]. destruct (modify _ _ w1) as [[sc2 w2]|]; [apply IH|reflexivity].
  - apply IH.
  - unfold bind. destruct (require _ _ w) as [[sc w1]|]; [|reflexivity]. destruct (emit _ _ w1) as [[sc2 w2]|]; [apply IH|reflexivity].
Qed.

(* the world w with the storage of self replaced *)
Definition at_ (c : ctx) (w : world) (sc : score) : world := World (w_icx w) (<[c_self c := sc]> (w_scores w)) (w_log w).
Definition logged (c : ctx) (e : event) (w : world) : world := World (w_icx w) (w_scores w) ((c_self c, e) :: w_log w).
Lemma at_same c w sc : w_scores w !! c_self c = Some sc -> w = at_ c w sc.
Proof. intros H. destruct w as [i s l]. unfold at_. cbn [w_icx w_scores w_log] in *. by rewrite insert_id. Qed.
Lemma this_at c w sc : this c (at_ c w sc) = Ok (sc, at_ c w sc).
Proof. unfold this, get_score, at_. cbn [w_icx w_scores w_log]. by rewrite lookup_insert. Qed.
Lemma modify_at c w sc f : modify c f (at_ c w sc) = Ok (tt, at_ c w (f sc)).
Proof. unfold modify, bind. rewrite this_at. unfold put_score, at_. cbn [w_icx w_scores w_log]. by rewrite insert_insert. Qed.
Lemma emit_at c w sc e : emit c e (at_ c w sc) = Ok (tt, at_ c (logged c e w) sc).
Proof. reflexivity. Qed.
Lemma denote_get {A} call c (k : score -> act A) w sc : denote call c (Get k) (at_ c w sc) = denote call c (k sc) (at_ c w sc).
Proof. cbn [denote]. by rewrite this_at. Qed.
Lemma denote_mod {A} call c f (k : act A) w sc : denote call c (Mod f k) (at_ c w sc) = denote call c k (at_ c w (f sc)).
Proof. cbn [denote]. by rewrite modify_at. Qed.
Lemma denote_log {A} call c e (k : act A) w sc : denote call c (Log e k) (at_ c w sc) = denote call c k (at_ c (logged c e w) sc).
Proof. reflexivity. Qed.
Lemma denote_cond {A} call c b (t e : act A) w : denote call c (Cond b t e) w = if b then denote call c t w else denote call c e w.
Proof. reflexivity. Qed.
Lemma denote_ret {A} call c (a : A) w : denote call c (Ret a) w = Done (a, w). Proof. reflexivity. Qed.
Lemma denote_fail {A} call c e w : denote (A:=A) call c (Fail e) w = Failed. Proof. reflexivity. Qed.
Lemma denote_call {A} call c to v m (k : rv -> act A) w :
  denote call c (Call to v m k) w = match call (c_ro c) (c_self c) to v m w with Ok (r, w') => denote call c (k r) w' | Err e => Failed end.
Proof. cbn [denote]. destruct (call _ _ _ _ _ _) as [[r w']|]; reflexivity. Qed.
Lemma denote_need {A X} call c (o : option X) (k : X -> act A) w :
  denote call c (Need o k) w = match o with Some x => denote call c (k x) w | None => Failed end.
Proof. reflexivity. Qed.
Lemma denote_sub {A} call c (r : res Z) (k : Z -> act A) w :
  denote call c (Sub (of_res r) k) w = match r with Ok z => denote call c (k z) w | Err e => Failed end.
Proof. destruct r; reflexivity. Qed.

(* calls never remove the storage of self, and never change the token of a converter *)
Definition keeps (call : bool -> addr -> addr -> Z -> msg -> M rv) (c : ctx) : Prop :=
  forall to v m w sc r w', w_scores w !! c_self c = Some sc -> call (c_ro c) (c_self c) to v m w = Ok (r, w') ->
  exists sc', w_scores w' !! c_self c = Some sc' /\ s_token sc' = s_token sc.
Lemma call_at call c : keeps call c -> forall to v m w sc,
  (exists e, call (c_ro c) (c_self c) to v m (at_ c w sc) = Err e) \/
  (exists r w' sc', call (c_ro c) (c_self c) to v m (at_ c w sc) = Ok (r, at_ c w' (set_token (s_token sc) sc'))).
Proof.
  intros K to v m w sc. destruct (call (c_ro c) (c_self c) to v m (at_ c w sc)) as [[r w']|e] eqn:E; [right|left; eauto].
  destruct (K to v m (at_ c w sc) sc r w') as [sc' [H T]]; [unfold at_; cbn [w_scores]; by rewrite lookup_insert|exact E|].
  exists r, w', sc'. replace (set_token (s_token sc) sc') with sc'; [by rewrite <- at_same|]. rewrite <- T. by destruct sc'.
Qed.

(* the actions of a method, computed; primitive tests and accesses are left alone *)
Ltac tree_in H := lazy -[Z.add Z.sub Z.mul Z.div Z.modulo Z.opp Z.pow Z.shiftl Z.shiftr Z.land Z.lor Z.leb Z.ltb Z.eqb
  same_addr same_maybe same_str same_data no_addr str_in distinct rv_int rv_addr rv_amount rv_none rv_is json_str json_is_int json_int json_null data_object field has_field no_fields put_field from_text
  put_bal icx_token put_icx_token registered put_registered del_registered put_conn_token conn_count conn_token put_virtual put_weight put_venabled put_penabled put_isset
  balance conn cn_virtual cn_weight cn_venabled cn_penabled cn_set is_contract zero_score c_sender c_self c_value addr_to_string strip split_comma formula_result
  s_name s_symbol s_decimals s_supply s_bal s_owner s_new_owner s_transferable s_manager s_new_manager s_token s_allow_reg s_registry s_prev_registry s_conn_tokens s_total_weight s_max_fee s_fee s_enabled s_connectors s_icx_tokens s_addrs
  set_name set_symbol set_decimals set_supply set_bal set_owner set_new_owner set_transferable set_manager set_new_manager set_token set_allow_reg set_registry set_prev_registry set_conn_tokens set_total_weight set_max_fee set_fee set_enabled set_connectors set_icx_tokens set_addrs
  ] in H.
(* replace the method in the goal by its actions *)
Ltac tree :=
  match goal with
  | |- context [denote ?cl ?c ?t ?w] => let t' := fresh "t" in let E := fresh "E" in remember t as t' eqn:E; tree_in E; subst t'
  end.
(* one step of both sides *)
Ltac unmodel := cbv beta iota zeta delta
  [honest_handler irc_handler icx_handler flex_handler reg_handler irc_views owned_methods managed_methods no_method done_
   bind ret fail require require_positive_value is_valid_address require_valid_address require_not_this safe_sub ecall icx_transfer
   owned_install require_owner_only transferOwnerShip acceptOwnerShip require_owner_or_manager_only transferManagement acceptManagement
   irc_install irc_transfer_ irc_transfer withdrawTokens icx_install icx_deposit icx_withdrawTo icx_transferTo
   flex_install flex_disableTransfer flex_issue flex_destroy flex_transfer registerAddress unregisterAddress reg_install
   conv_handler net_handler controller_install require_active require_inactive controller_forward require_valid_connector getConnectorBalance getFinalAmount final_amount token_supply with_fee price_data_update
   require_valid_connector_weight addConnector updateConnector disableConnectorPurchases updateRegistry restoreRegistry disableRegistryUpdate disableConversions setConversionFee conv_withdrawTokens getConnectorAt conv_install
   registerIcxToken lift].
Ltac start :=
  unfold handler_src; 
  match goal with |- context [may_call ?k ?m] => let b := eval vm_compute in (may_call k m) in change (may_call k m) with b end;
  cbv beta iota delta [msg_call].
Ltac norm := cbn [s_name s_symbol s_decimals s_supply s_bal s_owner s_new_owner s_transferable s_manager s_new_manager s_token s_allow_reg s_registry s_prev_registry s_conn_tokens s_total_weight s_max_fee s_fee s_enabled s_connectors s_icx_tokens s_addrs s_kind s_store cn_virtual cn_weight cn_venabled cn_penabled cn_set fst snd rv_none rv_is same_addr rv_addr rv_int rv_amount].
Ltac norm_in H := cbn [s_name s_symbol s_decimals s_supply s_bal s_owner s_new_owner s_transferable s_manager s_new_manager s_token s_allow_reg s_registry s_prev_registry s_conn_tokens s_total_weight s_max_fee s_fee s_enabled s_connectors s_icx_tokens s_addrs s_kind s_store cn_virtual cn_weight cn_venabled cn_penabled cn_set fst snd rv_none rv_is same_addr rv_addr rv_int rv_amount] in H.
Ltac tidy := repeat match goal with
  | |- context [(<[?a := _]> _) !! ?a] => rewrite lookup_insert
  | |- context [<[?a := _]> (<[?a := _]> _)] => rewrite insert_insert end.
Ltac open_up := cbv beta delta [balance add_bal put_bal icx_token put_icx_token registered put_registered del_registered put_conn_token conn_count put_virtual put_weight put_venabled put_penabled put_isset conn set_conn set_virtual
  set_name set_symbol set_decimals set_supply set_bal set_owner set_new_owner set_transferable set_manager set_new_manager set_token set_allow_reg set_registry set_prev_registry set_conn_tokens set_total_weight set_max_fee set_fee set_enabled set_connectors set_icx_tokens set_addrs
  same_addr same_maybe same_str same_data no_addr from_text str_in default from_option id data_none data_result score_keys Z.sub].
Ltac atom b := lazymatch b with | true => fail | false => fail | rv_none ?r => destruct r
  | 1 <? 0 => change (1 <? 0) with false | 2 <? 0 => change (2 <? 0) with false
  | 1000000 ^ 1 =? 0 => change (1000000 ^ 1 =? 0) with false | 1000000 ^ 2 =? 0 => change (1000000 ^ 2 =? 0) with false
  | 0 <=? 1 => change (0 <=? 1) with true | 0 <=? 2 => change (0 <=? 2) with true
  | (if ?x then _ else _) => atom x | negb ?x => atom x | andb ?x _ => atom x | orb ?x _ => atom x | Bool.eqb ?x _ => is_var x; destruct x
  | _ => destruct b eqn:? end.
Lemma bd_not {P} {D : Decision P} : bool_decide (~ P) = negb (bool_decide P).
Proof. apply bool_decide_not. Qed.
Lemma as_int_opt r : as_int r = match rv_int r with Some z => ret z | None => fail "TypeError" end.
Proof. by destruct r. Qed.
Lemma as_addr_opt r : as_addr r = match rv_addr r with Some z => ret z | None => fail "TypeError" end.
Proof. by destruct r. Qed.
Lemma is_active_at call c w sc :
  is_active call c (at_ c w sc) =
  match call (c_ro c) (c_self c) (s_token sc) 0 MGetOwner (at_ c w sc) with Ok (r, w') => Ok (rv_is (c_self c) r, w') | Err e => Err e end.
Proof.
  unfold is_active, bind. rewrite this_at. unfold ecall. destruct (call _ _ _ _ _ _) as [[r w']|]; [|reflexivity].
  unfold ret. destruct r; cbn [rv_is]; try reflexivity. unfold same_addr. repeat f_equal. apply bool_decide_ext. split; congruence.
Qed.
Lemma denote_sub' {A} call c (r : result Z) (k : Z -> act A) w :
  denote call c (Sub r k) w = match r with Done z => denote call c (k z) w | Failed => Failed | NoMeaning => NoMeaning end.
Proof. reflexivity. Qed.
(* the meaning d of a method and the model r of it: both fail, or both end with the same value and world *)
Definition agrees {A V} (c : ctx) (f : A -> V) (d : result (V * world)) (r : res (A * world)) : Prop :=
  (d = Failed /\ exists e, r = Err e) \/ (exists a w sc, d = Done (f a, at_ c w sc) /\ r = Ok (a, at_ c w sc)).
Lemma agrees_fail {A V} c (f : A -> V) e : agrees c f Failed (Err e).
Proof. left; eauto. Qed.
Lemma agrees_done {A V} c (f : A -> V) d a w sc : d = Done (f a, at_ c w sc) -> agrees c f d (Ok (a, at_ c w sc)).
Proof. right; eauto. Qed.
Ltac facts := repeat match goal with H : ?x = true |- _ => rewrite H; clear H | H : ?x = false |- _ => rewrite H; clear H end.
Ltac close := first [reflexivity | apply agrees_fail | apply agrees_done; reflexivity | facts; first [reflexivity | apply agrees_done; reflexivity]].
Ltac clash := exfalso; unfold same_addr in *;
  repeat match goal with H : bool_decide _ = true |- _ => apply bool_decide_eq_true_1 in H | H : bool_decide _ = false |- _ => apply bool_decide_eq_false_1 in H end;
  first [congruence | lia].
(* a step of the model *)
Ltac step_model r :=
  match r with
  | context [rv_int ?x] => match goal with H : rv_int x = _ |- _ => rewrite H end
  | context [rv_addr ?x] => match goal with H : rv_addr x = _ |- _ => rewrite H end
  | context [calculate_purchase_return ?s ?b ?w ?a] => match goal with H : calculate_purchase_return s b w a = _ |- _ => rewrite H end
  | context [calculate_sale_return ?s ?b ?w ?a] => match goal with H : calculate_sale_return s b w a = _ |- _ => rewrite H end
  | context [calculate_cross_connector_return ?s ?b ?w ?a ?d] => match goal with H : calculate_cross_connector_return s b w a d = _ |- _ => rewrite H end
  | context [this ?c (at_ ?c ?w ?s)] => rewrite this_at
  | context [modify ?c ?f (at_ ?c ?w ?s)] => rewrite modify_at
  | context [emit ?c ?f (at_ ?c ?w ?s)] => rewrite emit_at
  | context [is_active ?call ?c (at_ ?c ?w ?s)] => rewrite is_active_at
  | context [as_int ?r] => rewrite as_int_opt
  | context [as_addr ?r] => rewrite as_addr_opt
  | context [?f (c_ro ?c) (c_self ?c) _ _ _ _] => match goal with E : f (c_ro c) (c_self c) _ _ _ _ = _ |- _ => rewrite E end
  | context [bool_decide (~ _)] => rewrite bd_not
  | context [if ?b then _ else _] => atom b
  end.
Ltac step_both K l r :=
  lazymatch l with
  | denote ?call ?c ?t ?w =>
      lazymatch t with
      | Get _ => rewrite denote_get
      | Mod _ _ => rewrite denote_mod
      | Log _ _ => rewrite denote_log
      | Cond _ _ _ => rewrite denote_cond
      | Ret _ => rewrite denote_ret
      | Fail _ => rewrite denote_fail
      | Need _ _ => rewrite denote_need
      | Sub _ _ => first [rewrite purchase_src | rewrite sale_src | rewrite cross_src]; rewrite denote_sub
      | Call _ _ _ _ => rewrite denote_call
      end
  | (if ?b then _ else _) => atom b
  | match ?f (c_ro ?c) (c_self ?c) ?t ?v ?m (at_ ?c ?w ?s) with _ => _ end =>
      let E := fresh in destruct (call_at f c K t v m w s) as [[? E]|(? & ? & [] & E)]; cbv beta iota delta [set_token] in E; norm_in E; rewrite E
  | match ?o with Some _ => _ | None => _ end => first [match goal with H : o = _ |- _ => rewrite H end | destruct o eqn:?]
  | match ?o with Ok _ => _ | Err _ => _ end => destruct o eqn:?
  | Failed => lazymatch r with Err _ => close | Ok _ => clash | _ => step_model r end
  | Done _ => lazymatch r with Ok _ => close | Err _ => clash | _ => step_model r end
  end.
Ltac step K :=
  lazymatch goal with
  | H : false = true |- _ => discriminate H
  | H : true = false |- _ => discriminate H
  | |- ?l = of_res ?r => step_both K l r
  | |- agrees _ _ ?l ?r => step_both K l r
  end; cbv beta iota delta [negb andb orb Bool.eqb ret fail]; norm; tidy; cbv beta iota; norm;
  repeat match goal with
  | H : cn_venabled ?x = ?b |- context [cn_venabled ?x] => rewrite H
  | H : cn_set ?x = ?b |- context [cn_set ?x] => rewrite H
  | H : cn_penabled ?x = ?b |- context [cn_penabled ?x] => rewrite H end; cbv beta iota.

Ltac method K :=
  start;
  lazymatch goal with
  | |- Failed = _ => unmodel; reflexivity
  | |- denote _ _ _ (at_ _ _ ?sc) = _ => tree; unmodel; open_up; destruct sc; norm; repeat step K
  end.

(* a method whose calls are all expanded *)
Ltac whole K := match goal with |- context [at_ _ _ ?sc] => tree; unmodel; open_up; destruct sc; norm; repeat step K end.
