(* Every successful method call of a genuine contract is a sequence of [hstep]s; induction principle
   for message calls. *)
From Coq Require Import String Ascii ZArith Lia.
From stdpp Require Import base countable list numbers strings gmap relations.
From Verif Require Import Res FormulaConsts FormulaModel Codec World WorldBasics.
Local Open Scope Z_scope.
Local Open Scope M_scope.

Section ok.
Variable call : bool -> addr -> addr -> Z -> msg -> M rv.
Hypothesis Hdom : keeps_contracts call.

Notation okw := (okw call).
Notation okm := (okm call).

Lemma okw_assoc {A B C} k c m sc (p : M A) (f : A -> M B) (g : B -> M C) :
  okw k c m sc (bind p (fun a => bind (f a) g)) -> okw k c m sc (bind (bind p f) g).
Proof.
  intros H w x w' Hsc E. eapply H; [done|]. revert E. unfold bind. by destruct (p w) as [[? ?]|].
Qed.
Lemma okw_bind_if {A B} k c m sc (b : bool) (p q : M A) (g : A -> M B) :
  (b = true -> okw k c m sc (bind p g)) -> (b = false -> okw k c m sc (bind q g)) ->
  okw k c m sc (bind (if b then p else q) g).
Proof. destruct b; auto. Qed.
Lemma okw_bind_ret {A B} k c m sc (a : A) (g : A -> M B) :
  okw k c m sc (g a) -> okw k c m sc (bind (ret a) g).
Proof. done. Qed.

Lemma okw_sub {B} k c m sc x y (g : Z -> M B) :
  (forall z, okw k c m sc (g z)) -> okw k c m sc (bind (safe_sub x y) g).
Proof. intros H w z w' Hsc E. mstep E. by eapply H. Qed.

Ltac ok1 :=
  lazymatch goal with
  | |- WorldBasics.okm _ _ _ _ _ => let sc := fresh "sc" in intros sc
  | |- WorldBasics.okw _ _ _ _ _ (bind (bind _ _) _) => apply okw_assoc
  | |- WorldBasics.okw _ _ _ _ _ (bind (if _ then _ else _) _) => apply okw_bind_if; intros ?
  | |- WorldBasics.okw _ _ _ _ _ (bind (ret _) _) => apply okw_bind_ret
  | |- WorldBasics.okw _ _ _ _ _ (bind (this _) _) => apply okw_this
  | |- WorldBasics.okw _ _ _ _ _ (bind (safe_sub _ _) _) => apply okw_sub; intros ?
  | |- WorldBasics.okw _ _ _ _ _ (bind (require _ _) _) => apply okw_require; intros ?
  | |- WorldBasics.okw _ _ _ _ _ (bind (modify _ _) (fun _ => ret _)) => apply (okw_bind call Hdom); [|intros ?]
  | |- WorldBasics.okw _ _ _ _ _ (bind (modify _ _) _) => fail
  | |- WorldBasics.okw _ _ _ _ _ (bind (emit _ _) _) => fail
  | |- WorldBasics.okw _ _ _ _ _ (bind _ _) => apply (okw_bind call Hdom); [|intros ?]
  | |- WorldBasics.okw _ _ _ _ _ (ret _) => apply okw_ret
  | |- WorldBasics.okw _ _ _ _ _ (fail _) => apply okw_fail
  | |- WorldBasics.okw _ _ _ _ _ (lift _) => apply okw_lift
  | |- WorldBasics.okw _ _ _ _ _ (safe_sub _ _) => apply okw_safe_sub
  | |- WorldBasics.okw _ _ _ _ _ (as_int _) => apply okw_as_int
  | |- WorldBasics.okw _ _ _ _ _ (as_addr _) => apply okw_as_addr
  | |- WorldBasics.okw _ _ _ _ _ (require _ _) => apply okw_req
  | |- WorldBasics.okw _ _ _ _ _ (ecall _ _ _ _) => apply okw_ecall; first [by apply H_view|idtac]
  | |- WorldBasics.okw _ _ _ _ _ (if _ then _ else _) => case_match
  | |- WorldBasics.okw _ _ _ _ _ (match _ with _ => _ end) => case_match
  | |- WorldBasics.okw _ _ _ _ _ (modify _ _) => apply okw_modify
  | |- WorldBasics.okw _ _ _ _ _ (emit _ _) => apply okw_emit
  end.
Ltac ok := repeat ok1.
Ltac reqs := unfold require_positive_value, require_valid_address, require_not_this, is_valid_address,
  require_owner_only, require_owner_or_manager_only, require_valid_connector, require_valid_connector_weight in *.
(* finish a block of assignments *)
Ltac block L :=
  apply okw_block; let w := fresh "w" in let x := fresh "x" in let w' := fresh "w'" in
  let Hsc := fresh "Hsc" in let E := fresh "E" in
  intros w x w' Hsc E; mrun E; eexists _, _; split; [L|reflexivity].

Lemma owned_ok k c m p : owned_kind k = true -> okm k c m p -> okm k c m (owned_methods c m p).
Proof.
  intros Hk Hp. destruct m; try exact Hp; cbn [owned_methods]; unfold done_.
  - ok.
  - ok.
  - unfold transferOwnerShip; reqs. ok. bools. by eapply L_nominate.
  - unfold acceptOwnerShip. intros sc. apply okw_assoc. ok1. apply okw_assoc. ok1.
    bools. apply (okw_bind call Hdom); [|intros ?; ok]. block ltac:(by eapply L_accept).
Qed.
Lemma irc_views_ok k c m p : okm k c m p -> okm k c m (irc_views c m p).
Proof. intros Hp. destruct m; try exact Hp; cbn [irc_views]; ok. Qed.
Lemma managed_ok c m p : okm KConv c m p -> okm KConv c m (managed_methods c m p).
Proof.
  intros Hp. destruct m; try exact Hp; cbn [managed_methods]; unfold done_.
  - ok.
  - ok.
  - unfold transferManagement; reqs. ok. bools. eapply L_nominate_mgr; eauto. 
    destruct H; bools; eauto.
  - unfold acceptManagement. intros sc. apply okw_assoc. ok1. apply okw_assoc. ok1.
    bools. apply (okw_bind call Hdom); [|intros ?; ok]. block ltac:(by eapply L_accept_mgr).
Qed.

Lemma irc_transfer_ok k c m to v d sc :
  token_kind k = true -> m = MTransfer to v d ->
  (k = KFlex -> s_transferable sc = true) -> (k = KIcx -> to <> c_self c) ->
  okw k c m sc (irc_transfer call c to v d).
Proof.
  intros Hk Hm Hflex Hicx. unfold irc_transfer, irc_transfer_. ok1. ok1. ok1. bools.
  intros w x w' Hsc E.
  assert (lstep k c m sc (add_bal to v (add_bal (c_sender c) (- v) sc)) []) as HL by (by eapply L_move).
  mrun E.
  eapply steps_trans; [by eapply steps_put|].
  set (w1 := wput _ _ _) in *.
  enough (okw k c m (add_bal to v (add_bal (c_sender c) (- v) sc))
    (bind (if is_contract to then ecall call c to (MTokenFallback (c_sender c) v (default data_none d)) else ret RNone)
      (fun _ => emit c (EvTransfer (c_sender c) to v (default data_none d))))) as Hok.
  { eapply (Hok w1 x). { apply lookup_wput. } unfold bind. rewrite E0. unfold emit, wlog. by destruct x. }
  ok; [by eapply H_fallback|by eapply L_move_log|by eapply L_move_log].
Qed.

Lemma withdrawTokens_ok k c t to v :
  owned_kind k = true -> k <> KReg -> okm k c (MWithdrawTokens t to v) (withdrawTokens call c t to v).
Proof. intros. unfold withdrawTokens; reqs. ok. bools. eapply H_withdraw_tokens; eauto. Qed.

Lemma irc_handler_ok c m : okm KIrc c m (irc_handler call c m).
Proof.
  unfold irc_handler. apply irc_views_ok. destruct m; unfold no_method, done_; ok.
  by apply irc_transfer_ok.
Qed.

Lemma withdrawTo_ok c m v to :
  m = MWithdrawTo v to \/ (m = MWithdraw v /\ to = c_sender c) -> okm KIcx c m (icx_withdrawTo call c v to).
Proof.
  intros Hm. unfold icx_withdrawTo; reqs. ok1. ok1. ok1. ok1. bools.
  intros w x w' Hsc E. mrun E.
  eapply steps_trans; [eapply steps_put; [done| |reflexivity]; by eapply L_burn|].
  match goal with E0 : icx_transfer _ _ _ _ _ = Ok (?a1, ?w0) |- _ =>
    eapply (steps_trans _ _ _ _ _ w0); [eapply steps_call; [exact E0|apply lookup_wput|by eapply H_icx_out]|];
    destruct (Hdom _ _ _ _ _ _ _ _ _ _ E0 (lookup_wput _ _ _)) as [sc' Hsc'] end.
  eapply steps_local; [exact Hsc'|by eapply L_burn_log|].
  unfold wlog, wupd. cbn. by rewrite insert_id.
Qed.

Lemma icx_handler_ok c m : okm KIcx c m (icx_handler call c m).
Proof.
  unfold icx_handler. apply irc_views_ok, owned_ok; [done|]. destruct m; unfold no_method, done_;
    try (by ok); try (apply (okm_bind call Hdom); [|intros; ok]).
  - intros sc. unfold icx_deposit. block ltac:(eapply L_deposit; eauto).
  - unfold icx_transferTo, require_not_this. ok. bools. apply irc_transfer_ok; done.
  - intros sc. unfold icx_deposit. block ltac:(eapply L_deposit; eauto).
  - apply withdrawTo_ok; eauto.
  - apply withdrawTo_ok; eauto.
  - by apply withdrawTokens_ok.
Qed.

Lemma flex_handler_ok c m : okm KFlex c m (flex_handler call c m).
Proof.
  unfold flex_handler. apply irc_views_ok, owned_ok; [done|]. destruct m; unfold no_method, done_;
    try (by ok); try (apply (okm_bind call Hdom); [|intros; ok]).
  - unfold flex_transfer. ok. apply irc_transfer_ok; done.
  - unfold flex_disableTransfer; reqs. ok. bools. by eapply L_disable.
  - unfold flex_issue; reqs. intros sc. repeat ok1. bools.
    block ltac:(eapply L_issue; eauto).
  - unfold flex_destroy; reqs. intros sc. repeat ok1. bools.
    block ltac:(eapply L_destroy; eauto; match goal with H : _ \/ _ |- _ => destruct H; bools; eauto end).
  - by apply withdrawTokens_ok.
Qed.

Lemma is_active_ok k c m : okm k c m (is_active call c).
Proof. unfold is_active. ok. Qed.
Lemma getConnectorBalance_ok k c m t : okm k c m (getConnectorBalance call c t).
Proof. unfold getConnectorBalance; reqs. ok. Qed.
Lemma token_supply_ok k c m : okm k c m (token_supply call c).
Proof. unfold token_supply. ok. Qed.
Lemma with_fee_ok k c m x y : okm k c m (with_fee c x y).
Proof. unfold with_fee, getFinalAmount. ok. Qed.
Ltac conv_ok := repeat first
  [ apply is_active_ok | apply getConnectorBalance_ok | apply token_supply_ok | apply with_fee_ok | ok1 ].
Lemma get_purchase_return_ok k c m t a b : okm k c m (get_purchase_return call c t a b).
Proof. unfold get_purchase_return, require_active; reqs. conv_ok. Qed.
Lemma get_sale_return_ok k c m t a : okm k c m (get_sale_return call c t a).
Proof. unfold get_sale_return, require_active; reqs. conv_ok. Qed.
Lemma get_cross_ok k c m f t a b : okm k c m (get_cross_connector_return call c f t a b).
Proof. unfold get_cross_connector_return, require_active; reqs. conv_ok. Qed.
Lemma getReturn_ok k c m f t a : okm k c m (getReturn call c f t a).
Proof.
  unfold getReturn. repeat first [apply get_purchase_return_ok|apply get_sale_return_ok|apply get_cross_ok|ok1].
Qed.
Lemma price_ok c from v d t s : okm KConv c (MTokenFallback from v d) (price_data_update call c t s).
Proof. unfold price_data_update. conv_ok. by eapply L_price. Qed.

Ltac conv2 := repeat first
  [ apply is_active_ok | apply getConnectorBalance_ok | apply token_supply_ok | apply with_fee_ok
  | apply get_purchase_return_ok | apply get_sale_return_ok | apply get_cross_ok | apply price_ok
  | ok1
  | apply (okw_bind call Hdom); [|intros ?]
  | by eapply L_virtual | by eapply L_conversion | by eapply H_issue | by eapply H_destroy | by eapply H_pay ].

Lemma buy_ok c from v d t a mr : okm KConv c (MTokenFallback from v d) (buy call c from t a mr).
Proof. unfold buy. conv2. Qed.
Lemma sell_ok c from v d t mr : okm KConv c (MTokenFallback from v d) (sell call c from t v mr).
Proof. unfold sell. conv2. Qed.
Lemma cross_ok c from v d f t a mr : okm KConv c (MTokenFallback from v d) (convert_cross call c from f t a mr).
Proof. unfold convert_cross. conv2. Qed.

Lemma conv_tokenFallback_ok c from v d : okm KConv c (MTokenFallback from v d) (conv_tokenFallback call c from v d).
Proof.
  unfold conv_tokenFallback, conv_convert; reqs.
  repeat first [apply buy_ok|apply sell_ok|apply cross_ok|apply is_active_ok|ok1].
Qed.

Lemma forward_ok c m m' :
  (forall sc, c_sender c = s_owner sc -> hcall KConv c m sc (s_token sc) 0 m') ->
  okm KConv c m (controller_forward call c m').
Proof. intros H. unfold controller_forward; reqs. ok. bools. by apply H. Qed.

Lemma addConnector_ok c t weight ve : okm KConv c (MAddConnector t weight ve) (addConnector call c t weight ve).
Proof.
  unfold addConnector, require_inactive; reqs.
  repeat first [apply is_active_ok|ok1]. bools.
  block ltac:(eapply L_add_connector; eauto).
Qed.

Lemma conv_handler_ok c m : okm KConv c m (conv_handler call c m).
Proof.
  unfold conv_handler. apply owned_ok, managed_ok; [done|]. destruct m; unfold no_method, done_;
    try exact (conv_tokenFallback_ok _ _ _ _); try (by ok); try (apply (okm_bind call Hdom); [|intros; ok]).
  - unfold conv_withdrawTokens. repeat first [apply is_active_ok|apply withdrawTokens_ok; done|ok1].
  - apply is_active_ok.
  - apply forward_ok. intros. by eapply H_forward_owner.
  - apply forward_ok. intros. by eapply H_forward_accept.
  - apply forward_ok. intros. by eapply H_forward_disable.
  - apply forward_ok. intros. by eapply H_forward_withdraw.
  - apply addConnector_ok.
  - unfold updateConnector; reqs. intros sc. repeat ok1. bools.
    apply okw_block. intros w x w' Hsc E. mrun E. eexists _, _. split; [by eapply L_update_connector|].
    unfold wput, wupd. change (conn (set_total_weight _ sc) t) with (conn sc t). by rewrite H0.
  - unfold disableConnectorPurchases; reqs. intros sc. repeat ok1. bools. rewrite H0. by eapply L_disable_purchases.
  - unfold updateRegistry; reqs. intros sc. repeat ok1. bools.
    block ltac:(eapply L_update_registry; eauto).
  - unfold restoreRegistry; reqs. intros sc. repeat ok1. bools.
    block ltac:(eapply L_restore_registry; eauto). destruct H; bools; eauto.
  - unfold disableRegistryUpdate; reqs. ok. bools. eapply L_disable_registry; eauto. destruct H; bools; eauto.
  - unfold disableConversions; reqs. intros sc. repeat ok1; bools.
    + block ltac:(eapply L_disable_conversions; eauto). destruct H; bools; eauto. by apply eqb_prop.
  - unfold setConversionFee; reqs. intros sc. repeat ok1. bools.
    block ltac:(eapply L_set_fee; eauto). destruct H; bools; eauto.
  - unfold getConnectorAt. ok.
  - apply getConnectorBalance_ok.
  - apply getReturn_ok.
  - unfold getFinalAmount. ok.
Qed.

Lemma convert_by_path_ok c m from rest a j : okm KNet c m (convert_by_path call c from rest a j).
Proof.
  revert from a. induction rest as [rest IH] using (induction_ltof1 _ (@List.length addr)). unfold ltof in IH.
  intros from a. destruct rest as [|f [|t rest]]; cbn [convert_by_path]; [by ok|by ok|].
  repeat (first [ok1|by eapply H_hop|apply IH; cbn; lia]).
Qed.
Lemma convert_for_internal_ok c m path a j f : okm KNet c m (convert_for_internal call c path a j f).
Proof.
  unfold convert_for_internal. destruct path; [by ok|].
  apply (okm_bind call Hdom); [apply convert_by_path_ok|]. intros [to amount]. ok.
  - by eapply H_net_withdraw.
  - by eapply H_net_out.
Qed.
Lemma convertFor_ok c m path min for_ for' :
  m = MConvert path min \/ m = MConvertFor path min for' -> okm KNet c m (convertFor call c path min for_).
Proof.
  intros Hm. unfold convertFor, require_valid_path; reqs. case_match; [|by ok]. ok1. repeat ok1.
  - intros w x w' Hsc E. eapply steps_call; [exact E|exact Hsc|]. by eapply H_net_icx.
  - apply convert_for_internal_ok.
Qed.
Lemma expected_return_ok k c m from rest a : okm k c m (expected_return call c from rest a).
Proof.
  revert from a. induction rest as [rest IH] using (induction_ltof1 _ (@List.length addr)). unfold ltof in IH.
  intros from a. destruct rest as [|f [|t rest]]; cbn [expected_return]; [by ok|by ok|].
  repeat (first [ok1|apply IH; cbn; lia]).
Qed.
Lemma net_handler_ok c m : okm KNet c m (net_handler call c m).
Proof.
  unfold net_handler. apply owned_ok; [done|]. destruct m; unfold no_method, done_;
    try (by ok); try (apply (okm_bind call Hdom); [|intros; ok]).
  - by apply withdrawTokens_ok.
  - unfold net_tokenFallback, require_valid_path; reqs.
    repeat first [apply convert_for_internal_ok|ok1].
  - unfold getExpectedReturnByPath, require_valid_path; reqs.
    repeat first [apply expected_return_ok|ok1].
  - unfold registerIcxToken; reqs. intros sc. repeat ok1. bools. eapply L_register_icx; eauto.
  - eapply convertFor_ok; eauto.
  - eapply convertFor_ok; eauto.
Unshelve. exact zero_score.
Qed.
Lemma reg_handler_ok c m : okm KReg c m (reg_handler c m).
Proof.
  unfold reg_handler. apply owned_ok; [done|]. destruct m; unfold no_method, done_;
    try (by ok); try (apply (okm_bind call Hdom); [|intros; ok]).
  - unfold registerAddress; reqs. intros sc. repeat ok1. bools. block ltac:(eapply L_register; eauto).
  - unfold unregisterAddress; reqs. intros sc. repeat ok1. bools. block ltac:(eapply L_unregister; eauto).
Qed.

Theorem honest_handler_ok k c m : k <> KAdv -> okm k c m (honest_handler call k c m).
Proof.
  intros Hk. destruct k; cbn [honest_handler]; try done.
  - apply irc_handler_ok.
  - apply icx_handler_ok.
  - apply flex_handler_ok.
  - apply conv_handler_ok.
  - apply net_handler_ok.
  - apply reg_handler_ok.
Qed.
End ok.
