(* Inversion of monadic code and the decomposition of every successful call into local steps of
   one contract and nested calls. *)
From Coq Require Import String Ascii ZArith Lia.
From stdpp Require Import base countable list numbers strings gmap relations.
From Verif Require Import Res FormulaConsts FormulaModel Codec World.
Local Open Scope Z_scope.
Local Open Scope M_scope.

(* ------------------------------------------------------------- inversion ---- *)
Definition wput (a : addr) (sc : score) (w : world) : world :=
  World (w_icx w) (<[a := sc]> (w_scores w)) (w_log w).
Definition wlog (a : addr) (e : event) (w : world) : world :=
  World (w_icx w) (w_scores w) ((a, e) :: w_log w).

Lemma bind_Ok {A B} (m : M A) (f : A -> M B) w r :
  bind m f w = Ok r <-> exists a w1, m w = Ok (a, w1) /\ f a w1 = Ok r.
Proof.
  unfold bind. destruct (m w) as [[a w1]|e] eqn:E; split.
  - intros H. by exists a, w1.
  - intros (a' & w' & [= <- <-] & H). done.
  - done.
  - by intros (? & ? & ? & ?).
Qed.
Lemma ret_Ok {A} (a b : A) w w' : ret a w = Ok (b, w') <-> b = a /\ w' = w.
Proof. unfold ret. split; [by intros [= <- <-]|by intros [-> ->]]. Qed.
Lemma fail_Ok {A} e w (r : A * world) : fail e w = Ok r <-> False.
Proof. done. Qed.
Lemma lift_Ok {A} (m : res A) w (b : A) w' : lift m w = Ok (b, w') <-> m = Ok b /\ w' = w.
Proof. unfold lift. destruct m; split; try done; [by intros [= <- <-]|by intros [[= ->] ->]|by intros [? ?]]. Qed.
Lemma require_Ok b e w u w' : require b e w = Ok (u, w') <-> b = true /\ w' = w.
Proof. unfold require. destruct u, b; cbn; split; try done; [by intros [= <-]|by intros [_ ->]|by intros [? _]]. Qed.
Lemma get_score_Ok a w sc w' : get_score a w = Ok (sc, w') <-> w_scores w !! a = Some sc /\ w' = w.
Proof.
  unfold get_score. destruct (w_scores w !! a); split; try done.
  - by intros [= <- <-].
  - by intros [[= ->] ->].
  - by intros [? _].
Qed.
Lemma this_Ok c w sc w' : this c w = Ok (sc, w') <-> w_scores w !! c_self c = Some sc /\ w' = w.
Proof. apply get_score_Ok. Qed.
Lemma put_score_Ok a sc w u w' : put_score a sc w = Ok (u, w') <-> w' = wput a sc w.
Proof. unfold put_score, wput. destruct u. split; [by intros [= <-]|by intros ->]. Qed.
Lemma modify_Ok c f w u w' :
  modify c f w = Ok (u, w') <-> exists sc, w_scores w !! c_self c = Some sc /\ w' = wput (c_self c) (f sc) w.
Proof.
  unfold modify. rewrite bind_Ok. split.
  - intros (sc & w1 & H & H'). apply this_Ok in H as [H ->]. apply put_score_Ok in H'. eauto.
  - intros (sc & H & ->). exists sc, w. split; [by apply this_Ok|by apply put_score_Ok].
Qed.
Lemma emit_Ok c e w u w' : emit c e w = Ok (u, w') <-> w' = wlog (c_self c) e w.
Proof. unfold emit, wlog. destruct u. split; [by intros [= <-]|by intros ->]. Qed.
Lemma safe_sub_Ok x y w z w' : safe_sub x y w = Ok (z, w') <-> y <= x /\ z = x - y /\ w' = w.
Proof.
  unfold safe_sub. destruct (Z.ltb_spec x y); unfold fail, ret; split; try done.
  - intros (? & _). lia.
  - by intros [= <- <-].
  - by intros (? & -> & ->).
Qed.
Lemma as_int_Ok r w z w' : as_int r w = Ok (z, w') <-> r = RInt z /\ w' = w.
Proof. destruct r; cbn; split; unfold ret; try done; try (by intros [[=] _]); [by intros [= <- <-]|by intros [[= ->] ->]]. Qed.
Lemma as_addr_Ok r w z w' : as_addr r w = Ok (z, w') <-> r = RAddr z /\ w' = w.
Proof. destruct r; cbn; split; unfold ret; try done; try (by intros [[=] _]); [by intros [= <- <-]|by intros [[= ->] ->]]. Qed.
Lemma move_icx_Ok s t v w u w' : move_icx s t v w = Ok (u, w') ->
  (v = 0 /\ w' = w) \/
  (0 < v /\ v <= icx w s /\
   w' = World (<[t := default 0 (<[s := icx w s - v]> (w_icx w) !! t) + v]> (<[s := icx w s - v]> (w_icx w)))
              (w_scores w) (w_log w)).
Proof.
  unfold move_icx. destruct (Z.eqb_spec v 0); [intros [= _ <-]; by left|].
  destruct (Z.ltb_spec v 0); [done|]. destruct (Z.ltb_spec (icx w s) v); [done|]. cbn.
  intros [= _ <-]. right. repeat split; lia.
Qed.

Lemma wput_scores a sc w : w_scores (wput a sc w) = <[a := sc]> (w_scores w). Proof. done. Qed.
Lemma wput_icx a sc w : w_icx (wput a sc w) = w_icx w. Proof. done. Qed.
Lemma wput_log a sc w : w_log (wput a sc w) = w_log w. Proof. done. Qed.
Lemma wlog_scores a e w : w_scores (wlog a e w) = w_scores w. Proof. done. Qed.
Lemma wlog_icx a e w : w_icx (wlog a e w) = w_icx w. Proof. done. Qed.
Lemma wlog_log a e w : w_log (wlog a e w) = (a, e) :: w_log w. Proof. done. Qed.
Lemma wput_wput a sc sc' w : wput a sc (wput a sc' w) = wput a sc w.
Proof. unfold wput. cbn. by rewrite insert_insert. Qed.
Lemma wput_wlog a sc b e w : wput a sc (wlog b e w) = wlog b e (wput a sc w).
Proof. done. Qed.
Lemma lookup_wput a sc w : w_scores (wput a sc w) !! a = Some sc.
Proof. apply lookup_insert. Qed.
Lemma wput_same a sc w : w_scores w !! a = Some sc -> wput a sc w = w.
Proof. intros H. unfold wput. rewrite insert_id by done. by destruct w. Qed.

(* take one hypothesis apart *)
Ltac msub := repeat match goal with
  | H : ?x = ?y |- _ => is_var x; subst x
  | H : ?x = ?y |- _ => is_var y; subst y
  end.
Ltac mstep H :=
  lazymatch type of H with
  | bind _ _ _ = Ok _ =>
      let a := fresh "a" in let w := fresh "w" in let E := fresh "E" in
      apply bind_Ok in H as (a & w & E & H); mstep E
  | ret _ _ = Ok _ => let X := fresh in apply ret_Ok in H as [X ->]; try subst
  | fail _ _ = Ok _ => exfalso; discriminate H
  | require _ _ _ = Ok _ => let X := fresh "Hreq" in apply require_Ok in H as [X ->]
  | get_score _ _ = Ok _ => let X := fresh "Hsc" in apply get_score_Ok in H as [X ->]
  | this _ _ = Ok _ => let X := fresh "Hsc" in apply this_Ok in H as [X ->]
  | modify _ _ _ = Ok _ => let sc := fresh "sc" in let X := fresh "Hsc" in apply modify_Ok in H as (sc & X & ->)
  | emit _ _ _ = Ok _ => apply emit_Ok in H as ->
  | safe_sub _ _ _ = Ok _ => let X := fresh "Hsub" in apply safe_sub_Ok in H as (X & -> & ->)
  | lift _ _ = Ok _ => let X := fresh "Hlift" in apply lift_Ok in H as [X ->]
  | as_int _ _ = Ok _ => apply as_int_Ok in H as [-> ->]
  | as_addr _ _ = Ok _ => apply as_addr_Ok in H as [-> ->]
  | (match ?x with _ => _ end) _ = Ok _ => idtac
  | _ => idtac
  end.
(* unify repeated reads of the same storage *)
Ltac scunify := repeat match goal with
  | H : w_scores ?w !! ?a = Some ?s, H' : w_scores ?w !! ?a = Some ?s' |- _ =>
      assert (s' = s) by congruence; clear H'; subst s'
  | H : w_scores (wput ?a ?sc ?w) !! ?a = Some ?s |- _ => rewrite lookup_wput in H; injection H as H; try subst s
  | H : w_scores (wlog _ _ _) !! _ = Some _ |- _ => rewrite wlog_scores in H
  | H : bool_decide _ = true |- _ => apply bool_decide_eq_true in H
  | H : context [wput ?a _ (wput ?a _ _)] |- _ => rewrite wput_wput in H
  | |- context [wput ?a _ (wput ?a _ _)] => rewrite wput_wput
  | H : context [wput _ _ (wlog _ _ _)] |- _ => rewrite wput_wlog in H
  | |- context [wput _ _ (wlog _ _ _)] => rewrite wput_wlog
  end.
Ltac bools := repeat match goal with
  | H : negb _ = true |- _ => apply negb_true_iff in H
  | H : negb _ = false |- _ => apply negb_false_iff in H
  | H : _ && _ = true |- _ => apply andb_true_iff in H as [? ?]
  | H : _ && _ = false |- _ => apply andb_false_iff in H
  | H : _ || _ = true |- _ => apply orb_true_iff in H
  | H : _ || _ = false |- _ => apply orb_false_iff in H as [? ?]
  | H : (_ <? _) = true |- _ => apply Z.ltb_lt in H
  | H : (_ <? _) = false |- _ => apply Z.ltb_ge in H
  | H : (_ <=? _) = true |- _ => apply Z.leb_le in H
  | H : (_ <=? _) = false |- _ => apply Z.leb_gt in H
  | H : (_ =? _) = true |- _ => apply Z.eqb_eq in H
  | H : (_ =? _) = false |- _ => apply Z.eqb_neq in H
  | H : bool_decide _ = true |- _ => apply bool_decide_eq_true in H
  | H : bool_decide _ = false |- _ => apply bool_decide_eq_false in H
  end.
Ltac mrun H :=
  lazymatch type of H with
  | bind _ _ _ = Ok _ =>
      let a := fresh "a" in let w := fresh "w" in let E := fresh "E" in
      apply bind_Ok in H as (a & w & E & H); mrun E; scunify; mrun H
  | _ => mstep H; scunify
  end.

(* ------------------------------------------------------------ small steps ---- *)
Definition owned_kind (k : kind) : bool := match k with KIrc | KAdv => false | _ => true end.
Definition token_kind (k : kind) : bool := match k with KIrc | KIcx | KFlex => true | _ => false end.

(* What a contract of kind k may do to its own storage and log while it executes message m in frame c:
   storage before, storage after, events newest first. *)
Inductive lstep (k : kind) (c : ctx) (m : msg) : score -> score -> list event -> Prop :=
| L_move sc to v d :
    token_kind k = true -> m = MTransfer to v d -> 0 <= v <= balance sc (c_sender c) ->
    (k = KFlex -> s_transferable sc = true) -> (k = KIcx -> to <> c_self c) ->
    lstep k c m sc (add_bal to v (add_bal (c_sender c) (- v) sc)) []
| L_move_log sc to v d :
    token_kind k = true -> m = MTransfer to v d ->
    lstep k c m sc sc [EvTransfer (c_sender c) to v (default data_none d)]
| L_deposit sc :
    k = KIcx -> m = MFallback \/ m = MDeposit ->
    lstep k c m sc (set_supply (s_supply sc + c_value c) (add_bal (c_sender c) (c_value c) sc))
          [EvTransfer (c_self c) (c_sender c) (c_value c) data_none; EvIssuance (c_value c)]
| L_burn sc v to :
    k = KIcx -> m = MWithdrawTo v to \/ (m = MWithdraw v /\ to = c_sender c) -> 0 < v <= balance sc (c_sender c) ->
    lstep k c m sc (set_supply (s_supply sc - v) (add_bal (c_sender c) (- v) sc)) []
| L_burn_log sc v to :
    k = KIcx -> m = MWithdrawTo v to \/ (m = MWithdraw v /\ to = c_sender c) ->
    lstep k c m sc sc [EvDestruction v]
| L_issue sc to v :
    k = KFlex -> m = MIssue to v -> 0 < v -> c_sender c = s_owner sc -> to <> zero_score -> to <> c_self c ->
    lstep k c m sc (set_supply (s_supply sc + v) (add_bal to v sc))
          [EvTransfer (c_self c) to v data_none; EvIssuance v]
| L_destroy sc from v :
    k = KFlex -> m = MDestroy from v -> 0 < v <= balance sc from -> c_sender c = from \/ c_sender c = s_owner sc ->
    lstep k c m sc (set_supply (s_supply sc - v) (add_bal from (- v) sc))
          [EvTransfer from (c_self c) v data_none; EvDestruction v]
| L_disable sc b :
    k = KFlex -> m = MDisableTransfer b -> c_sender c = s_owner sc ->
    lstep k c m sc (set_transferable (negb b) sc) []
| L_nominate sc a :
    owned_kind k = true -> m = MTransferOwnership a -> c_sender c = s_owner sc -> a <> s_owner sc ->
    lstep k c m sc (set_new_owner a sc) []
| L_accept sc :
    owned_kind k = true -> m = MAcceptOwnership -> c_sender c = s_new_owner sc ->
    lstep k c m sc (set_new_owner zero_score (set_owner (s_new_owner sc) sc)) [EvOwnerUpdate (s_owner sc) (s_new_owner sc)]
| L_nominate_mgr sc a :
    k = KConv -> m = MTransferManagement a -> Some (c_sender c) = s_manager sc \/ c_sender c = s_owner sc ->
    s_manager sc <> Some a ->
    lstep k c m sc (set_new_manager (Some a) sc) []
| L_accept_mgr sc :
    k = KConv -> m = MAcceptManagement -> Some (c_sender c) = s_new_manager sc ->
    lstep k c m sc (set_new_manager (Some zero_score) (set_manager (s_new_manager sc) sc))
          [EvManagerUpdate (s_manager sc) (s_new_manager sc)]
| L_virtual sc from v d t z :
    k = KConv -> m = MTokenFallback from v d -> cn_venabled (conn sc t) = true ->
    lstep k c m sc (set_virtual t z sc) []
| L_conversion sc from v d ft tt_ amount r fee :
    k = KConv -> m = MTokenFallback from v d ->
    lstep k c m sc sc [EvConversion ft tt_ from amount r fee]
| L_price sc from v d t x y z :
    k = KConv -> m = MTokenFallback from v d ->
    lstep k c m sc sc [EvPriceDataUpdate t x y z]
| L_add_connector sc t weight ve :
    k = KConv -> m = MAddConnector t weight ve ->
    t <> zero_score -> t <> c_self c -> t <> s_token sc -> cn_set (conn sc t) = false ->
    0 < weight <= 1000000 -> s_total_weight sc + weight <= 1000000 ->
    lstep k c m sc (set_total_weight (s_total_weight sc + weight)
                     (set_conn_tokens (s_conn_tokens sc ++ [t]) (set_conn t (Connector 0 weight ve true true) sc))) []
| L_update_connector sc t weight ve virtual :
    k = KConv -> m = MUpdateConnector t weight ve virtual -> c_sender c = s_owner sc ->
    cn_set (conn sc t) = true -> 0 < weight <= 1000000 ->
    s_total_weight sc - cn_weight (conn sc t) + weight <= 1000000 ->
    lstep k c m sc (set_conn t (Connector virtual weight ve (cn_penabled (conn sc t)) true)
                     (set_total_weight (s_total_weight sc - cn_weight (conn sc t) + weight) sc)) []
| L_disable_purchases sc t b :
    k = KConv -> m = MDisableConnectorPurchases t b -> c_sender c = s_owner sc -> cn_set (conn sc t) = true ->
    lstep k c m sc (set_conn t (Connector (cn_virtual (conn sc t)) (cn_weight (conn sc t)) (cn_venabled (conn sc t))
                                          (negb b) true) sc) []
| L_update_registry sc a :
    k = KConv -> m = MUpdateRegistry -> a <> zero_score -> a <> s_registry sc ->
    lstep k c m sc (set_registry a (set_prev_registry (s_registry sc) sc)) []
| L_restore_registry sc :
    k = KConv -> m = MRestoreRegistry -> Some (c_sender c) = s_manager sc \/ c_sender c = s_owner sc ->
    lstep k c m sc (set_allow_reg false (set_registry (s_prev_registry sc) sc)) []
| L_disable_registry sc b :
    k = KConv -> m = MDisableRegistryUpdate b -> Some (c_sender c) = s_manager sc \/ c_sender c = s_owner sc ->
    lstep k c m sc (set_allow_reg (negb b) sc) []
| L_disable_conversions sc b :
    k = KConv -> m = MDisableConversions b -> Some (c_sender c) = s_manager sc \/ c_sender c = s_owner sc ->
    s_enabled sc = b ->
    lstep k c m sc (set_enabled (negb b) sc) [EvConversionsEnable (negb b)]
| L_set_fee sc fee :
    k = KConv -> m = MSetConversionFee fee -> Some (c_sender c) = s_manager sc \/ c_sender c = s_owner sc ->
    0 <= fee <= s_max_fee sc ->
    lstep k c m sc (set_fee fee sc) [EvConversionFeeUpdate (s_fee sc) fee]
| L_register_icx sc t b :
    k = KNet -> m = MRegisterIcxToken t b -> c_sender c = s_owner sc -> t <> zero_score -> t <> c_self c ->
    lstep k c m sc (set_icx_tokens (<[t := b]> (s_icx_tokens sc)) sc) []
| L_register sc n a :
    k = KReg -> m = MRegisterAddress n a -> c_sender c = s_owner sc -> a <> zero_score -> is_contract a = true ->
    n ∈ score_keys ->
    lstep k c m sc (set_addrs (<[n := a]> (s_addrs sc)) sc) [EvAddressUpdate n a]
| L_unregister sc n :
    k = KReg -> m = MUnregisterAddress n -> c_sender c = s_owner sc -> s_addrs sc !! n <> None ->
    lstep k c m sc (set_addrs (delete n (s_addrs sc)) sc) [EvAddressUpdate n zero_score]
| L_store sc z : k = KAdv -> lstep k c m sc (set_store z sc) []
| L_other sc z : k = KAdv -> lstep k c m sc sc [EvOther z].

(* Which calls a genuine contract of kind k may make while it executes message m in frame c,
   sc being its storage at that moment *)
Inductive hcall (k : kind) (c : ctx) (m : msg) (sc : score) : addr -> Z -> msg -> Prop :=
| H_view to m' : is_readonly m' = true -> hcall k c m sc to 0 m'
| H_fallback to v d :
    token_kind k = true -> m = MTransfer to v d -> is_contract to = true -> (k = KIcx -> to <> c_self c) ->
    hcall k c m sc to 0 (MTokenFallback (c_sender c) v (default data_none d))
| H_icx_out v to :
    k = KIcx -> m = MWithdrawTo v to \/ (m = MWithdraw v /\ to = c_sender c) -> 0 < v -> hcall k c m sc to v MFallback
| H_withdraw_tokens t to v :
    owned_kind k = true -> k <> KReg -> m = MWithdrawTokens t to v -> c_sender c = s_owner sc -> 0 < v ->
    to <> c_self c -> to <> zero_score ->
    hcall k c m sc t 0 (MTransfer to v None)
| H_forward_owner a :
    k = KConv -> m = MTransferTokenOwnership a -> c_sender c = s_owner sc ->
    hcall k c m sc (s_token sc) 0 (MTransferOwnership a)
| H_forward_accept :
    k = KConv -> m = MAcceptTokenOwnership -> c_sender c = s_owner sc ->
    hcall k c m sc (s_token sc) 0 MAcceptOwnership
| H_forward_disable b :
    k = KConv -> m = MDisableTokenTransfers b -> c_sender c = s_owner sc ->
    hcall k c m sc (s_token sc) 0 (MDisableTransfer b)
| H_forward_withdraw t to v :
    k = KConv -> m = MWithdrawFromToken t to v -> c_sender c = s_owner sc ->
    hcall k c m sc (s_token sc) 0 (MWithdrawTokens t to v)
| H_issue from v d r :
    k = KConv -> m = MTokenFallback from v d -> hcall k c m sc (s_token sc) 0 (MIssue from r)
| H_destroy from v d :
    k = KConv -> m = MTokenFallback from v d -> hcall k c m sc (s_token sc) 0 (MDestroy (c_self c) v)
| H_pay from v d t r :
    k = KConv -> m = MTokenFallback from v d -> hcall k c m sc t 0 (MTransfer from r (Some data_result))
| H_hop from to amount j dest :
    k = KNet -> hcall k c m sc from 0 (MTransfer to amount (Some (hop_data dest j)))
| H_net_out to amount for_ :
    k = KNet -> default false (s_icx_tokens sc !! to) = false -> hcall k c m sc to 0 (MTransfer for_ amount (Some data_none))
| H_net_withdraw to amount for_ :
    k = KNet -> default false (s_icx_tokens sc !! to) = true -> hcall k c m sc to 0 (MWithdrawTo amount for_)
| H_net_icx p0 path min for_ :
    k = KNet -> m = MConvert path min \/ m = MConvertFor path min for_ ->
    default false (s_icx_tokens sc !! p0) = true -> hcall k c m sc p0 (c_value c) MFallback.

Definition wupd (a : addr) (sc : score) (evs : list event) (w : world) : world :=
  World (w_icx w) (<[a := sc]> (w_scores w)) (map (pair a) evs ++ w_log w).

Section steps.
Variable call : bool -> addr -> addr -> Z -> msg -> M rv.
(* contracts do not disappear *)
Definition keeps_contracts := forall ro s t v m w r w' a sc,
  call ro s t v m w = Ok (r, w') -> w_scores w !! a = Some sc -> exists sc', w_scores w' !! a = Some sc'.

Inductive hstep (k : kind) (c : ctx) (m : msg) : world -> world -> Prop :=
| hs_local w sc sc' evs :
    w_scores w !! c_self c = Some sc -> lstep k c m sc sc' evs -> hstep k c m w (wupd (c_self c) sc' evs w)
| hs_call w w' sc to v m' r :
    w_scores w !! c_self c = Some sc -> hcall k c m sc to v m' ->
    call (c_ro c) (c_self c) to v m' w = Ok (r, w') -> hstep k c m w w'.

Definition steps k c m := rtc (hstep k c m).

Lemma steps_refl k c m w : steps k c m w w.
Proof. apply rtc_refl. Qed.
Lemma steps_trans k c m w1 w2 w3 : steps k c m w1 w2 -> steps k c m w2 w3 -> steps k c m w1 w3.
Proof. apply rtc_transitive. Qed.
Lemma steps_local k c m w w' sc sc' evs :
  w_scores w !! c_self c = Some sc -> lstep k c m sc sc' evs -> w' = wupd (c_self c) sc' evs w -> steps k c m w w'.
Proof. intros ? ? ->. apply rtc_once. by eapply hs_local. Qed.
(* only a nested call: storage of the caller at the time of the call *)
Lemma steps_call k c m w w' sc to v m' r :
  call (c_ro c) (c_self c) to v m' w = Ok (r, w') -> w_scores w !! c_self c = Some sc ->
  hcall k c m sc to v m' -> steps k c m w w'.
Proof. intros. apply rtc_once. by eapply hs_call. Qed.

Lemma ecall_view k c m w w' sc to m' r :
  ecall call c to m' w = Ok (r, w') -> w_scores w !! c_self c = Some sc -> is_readonly m' = true -> steps k c m w w'.
Proof. intros. eapply steps_call; [done|done|by constructor]. Qed.

Lemma steps_put k c m w w0 sc sc' :
  w_scores w0 !! c_self c = Some sc -> lstep k c m sc sc' [] -> w = wput (c_self c) sc' w0 -> steps k c m w0 w.
Proof. intros ? ? ->. by eapply steps_local. Qed.

Hypothesis Hdom : keeps_contracts.

Lemma ecall_dom c to m' w r w' a sc :
  ecall call c to m' w = Ok (r, w') -> w_scores w !! a = Some sc -> exists sc', w_scores w' !! a = Some sc'.
Proof. apply Hdom. Qed.


Lemma hstep_dom k c m w w' a sc :
  hstep k c m w w' -> w_scores w !! a = Some sc -> exists sc', w_scores w' !! a = Some sc'.
Proof.
  intros H Ha. destruct H as [w sc0 sc' evs H1 H2|w w' sc0 to v m' r H1 H2 H3].
  - unfold wupd. cbn. destruct (decide (a = c_self c)) as [->|Hne].
    + eexists. apply lookup_insert.
    + exists sc. by rewrite lookup_insert_ne.
  - by eapply Hdom.
Qed.
Lemma steps_dom k c m w w' a sc :
  steps k c m w w' -> w_scores w !! a = Some sc -> exists sc', w_scores w' !! a = Some sc'.
Proof.
  intros H. revert sc. induction H as [|w w1 w2 H1 H2 IH]; [eauto|].
  intros sc Ha. eapply hstep_dom in H1 as [sc1 ?]; [|exact Ha]. eauto.
Qed.

(* p, run when this contract's storage is sc, decomposes *)
Definition okw {A} k c m sc (p : M A) : Prop := forall w a w',
  w_scores w !! c_self c = Some sc -> p w = Ok (a, w') -> steps k c m w w'.
Definition okm {A} k c m (p : M A) : Prop := forall sc, okw k c m sc p.

Section rules.
Context (k : kind) (c : ctx) (m : msg).

Lemma okw_bind {A B} sc (p : M A) (f : A -> M B) :
  okw k c m sc p -> (forall a, okm k c m (f a)) -> okw k c m sc (bind p f).
Proof.
  intros Hp Hf w b w' Hsc H. apply bind_Ok in H as (a & w1 & H1 & H2).
  pose proof (Hp _ _ _ Hsc H1) as S1. destruct (steps_dom _ _ _ _ _ _ _ S1 Hsc) as [sc1 Hsc1].
  eapply steps_trans; [exact S1|]. by eapply Hf.
Qed.
Lemma okm_bind {A B} (p : M A) (f : A -> M B) :
  okm k c m p -> (forall a, okm k c m (f a)) -> okm k c m (bind p f).
Proof. intros Hp Hf sc. by apply okw_bind. Qed.
(* p does not change the world *)
Definition pure_at {A} sc (p : M A) (P : A -> Prop) : Prop := forall w a w',
  w_scores w !! c_self c = Some sc -> p w = Ok (a, w') -> w' = w /\ P a.
Lemma okw_pure {A B} sc (p : M A) P (f : A -> M B) :
  pure_at sc p P -> (forall a, P a -> okw k c m sc (f a)) -> okw k c m sc (bind p f).
Proof.
  intros Hp Hf w b w' Hsc H. apply bind_Ok in H as (a & w1 & H1 & H2).
  destruct (Hp _ _ _ Hsc H1) as [-> HP]. by eapply Hf.
Qed.
Lemma okw_this {B} sc (f : score -> M B) : okw k c m sc (f sc) -> okw k c m sc (bind (this c) f).
Proof. intros Hf w b w' Hsc H. mstep H. scunify. by eapply Hf. Qed.
Lemma okw_require {B} sc b e (f : unit -> M B) :
  (b = true -> okw k c m sc (f tt)) -> okw k c m sc (bind (require b e) f).
Proof. intros Hf w x w' Hsc H. mstep H. destruct a. by eapply Hf. Qed.
Lemma okw_ret {A} sc (a : A) : okw k c m sc (ret a).
Proof. intros w x w' Hsc H. apply ret_Ok in H as [_ ->]. apply steps_refl. Qed.
Lemma okw_fail {A} sc e : okw (A:=A) k c m sc (fail e).
Proof. intros w x w' Hsc H. done. Qed.
Lemma okw_lift {A} sc (r : res A) : okw k c m sc (lift r).
Proof. intros w x w' Hsc H. apply lift_Ok in H as [_ ->]. apply steps_refl. Qed.
Lemma okw_safe_sub sc x y : okw k c m sc (safe_sub x y).
Proof. intros w z w' Hsc H. apply safe_sub_Ok in H as (_ & _ & ->). apply steps_refl. Qed.
Lemma okw_as_int sc r : okw k c m sc (as_int r).
Proof. intros w z w' Hsc H. apply as_int_Ok in H as (_ & ->). apply steps_refl. Qed.
Lemma okw_as_addr sc r : okw k c m sc (as_addr r).
Proof. intros w z w' Hsc H. apply as_addr_Ok in H as (_ & ->). apply steps_refl. Qed.
Lemma okw_req sc b e : okw k c m sc (require b e).
Proof. intros w z w' Hsc H. apply require_Ok in H as (_ & ->). apply steps_refl. Qed.
Lemma okw_ecall sc to m' : hcall k c m sc to 0 m' -> okw k c m sc (ecall call c to m').
Proof. intros Hc w z w' Hsc H. by eapply steps_call. Qed.
Lemma okw_call sc to v m' : hcall k c m sc to v m' -> okw k c m sc (call (c_ro c) (c_self c) to v m').
Proof. intros Hc w z w' Hsc H. by eapply steps_call. Qed.
Lemma okw_modify sc g : lstep k c m sc (g sc) [] -> okw k c m sc (modify c g).
Proof. intros Hl w z w' Hsc H. mstep H. scunify. by eapply steps_local. Qed.
Lemma okw_emit sc e : lstep k c m sc sc [e] -> okw k c m sc (emit c e).
Proof.
  intros Hl w z w' Hsc H. mstep H. eapply steps_local; [done|done|].
  unfold wlog, wupd. cbn. by rewrite insert_id.
Qed.
(* several assignments and events in one local step *)
Lemma okw_block {A} sc (p : M A) :
  (forall w a w', w_scores w !! c_self c = Some sc -> p w = Ok (a, w') ->
     exists sc' evs, lstep k c m sc sc' evs /\ w' = wupd (c_self c) sc' evs w) ->
  okw k c m sc p.
Proof. intros Hp w z w' Hsc H. destruct (Hp _ _ _ Hsc H) as (sc' & evs & Hl & ->). by eapply steps_local. Qed.
Lemma okw_modify_then {B} sc g (f : unit -> M B) :
  lstep k c m sc (g sc) [] -> okw k c m (g sc) (f tt) -> okw k c m sc (bind (modify c g) f).
Proof.
  intros Hl Hf w z w' Hsc H. mstep H. scunify. destruct a. eapply steps_trans; [by eapply steps_put|].
  eapply Hf; [|done]. apply lookup_wput.
Qed.
End rules.
End steps.

