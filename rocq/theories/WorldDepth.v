(* How deep the message calls of the genuine contracts nest: at most six frames, whatever the state.  Every message has a
   rank, the number of nested frames its execution can need; a method only sends messages of a smaller rank. *)
From Coq Require Import String Ascii ZArith Lia.
From stdpp Require Import base countable list numbers strings gmap.
From Verif Require Import Res FormulaModel Codec World WorldBasics WorldExec WorldSpec.
Local Open Scope string_scope.
Local Open Scope list_scope.
Local Open Scope Z_scope.
Local Open Scope M_scope.

Definition kinds := addr -> option kind.
Definition agree (K : kinds) (w : world) : Prop := forall a, kind_at w a = K a.

(* the same result in every world with these kinds, and the kinds stay *)
Definition same {A} (K : kinds) (m1 m2 : M A) : Prop :=
  forall w, agree K w -> m1 w = m2 w /\ forall a w', m1 w = Ok (a, w') -> agree K w'.

Lemma same_bind {A B} K (m1 m2 : M A) (f1 f2 : A -> M B) :
  same K m1 m2 -> (forall a, same K (f1 a) (f2 a)) -> same K (bind m1 f1) (bind m2 f2).
Proof.
  intros H1 H2 w Hw. destruct (H1 w Hw) as [E P]. unfold bind. rewrite <- E. destruct (m1 w) as [[a w1]|e] eqn:Em; [|done].
  exact (H2 a w1 (P a w1 eq_refl)).
Qed.
Lemma same_ret {A} K (a : A) : same K (ret a) (ret a).
Proof. intros w Hw. split; [done|]. by intros ? ? [= <- <-]. Qed.
Lemma same_fail {A} K e : same K (fail e : M A) (fail e).
Proof. intros w Hw. by split. Qed.
Lemma same_lift {A} K (r : res A) : same K (lift r) (lift r).
Proof. intros w Hw. split; [done|]. unfold lift. destruct r; [|done]. by intros ? ? [= <- <-]. Qed.
Lemma same_require K b e : same K (require b e) (require b e).
Proof. unfold require. destruct b; [apply same_ret|apply same_fail]. Qed.
Lemma same_get K a : same K (get_score a) (get_score a).
Proof. intros w Hw. split; [done|]. unfold get_score. destruct (w_scores w !! a); [|done]. by intros ? ? [= <- <-]. Qed.
Lemma same_this K c : same K (this c) (this c).
Proof. apply same_get. Qed.
Lemma same_emit K c e : same K (emit c e) (emit c e).
Proof. intros w Hw. split; [done|]. unfold emit. by intros ? ? [= <- <-]. Qed.
Lemma same_move K s t v : same K (move_icx s t v) (move_icx s t v).
Proof.
  intros w Hw. split; [done|]. unfold move_icx. intros a w'. destruct (v =? 0); [by intros [= <- <-]|].
  destruct ((v <? 0) || (icx w s <? v)); [done|]. by intros [= <- <-].
Qed.
Lemma same_modify K c f : (forall sc, s_kind (f sc) = s_kind sc) -> same K (modify c f) (modify c f).
Proof.
  intros Hf w Hw. split; [done|]. unfold modify, bind, this, get_score, put_score. intros a w'.
  destruct (w_scores w !! c_self c) as [sc|] eqn:E; [|done]. intros [= <- <-] b. cbn [w_scores]. unfold kind_at. cbn [w_scores].
  destruct (decide (b = c_self c)) as [->|N].
  - rewrite lookup_insert. cbn. rewrite Hf, <- (Hw (c_self c)). unfold kind_at. by rewrite E.
  - rewrite lookup_insert_ne by done. apply Hw.
Qed.
Lemma same_as_int K r : same K (as_int r) (as_int r).
Proof. destruct r; cbn [as_int]; first [apply same_ret|apply same_fail]. Qed.
Lemma same_as_addr K r : same K (as_addr r) (as_addr r).
Proof. destruct r; cbn [as_addr]; first [apply same_ret|apply same_fail]. Qed.

(* ------------------------------------------------------------------ ranks ---- *)
(* the data of a conversion request to the Network *)
Definition has_path (d : data) : bool :=
  match d with DRaw _ => false | DJson m => bool_decide (m !! "path" <> None) end.
Definition is_raw (d : data) : bool := match d with DRaw _ => true | _ => false end.
(* sending tokens back to such an address leads no further *)
Definition simple (K : kinds) (a : addr) : bool :=
  negb (is_contract a) || bool_decide (K a = Some KNet).
Definition fallback_rank (K : kinds) (t from : addr) (d : data) : nat :=
  match K t with
  | Some KNet => if has_path d then 5 else 1
  | Some KConv => if is_raw d then 2 else if simple K from then 3 else 4
  | _ => 1
  end.
Definition transfer_rank (K : kinds) (s to : addr) (d : data) : nat :=
  S (if is_contract to then fallback_rank K to s d else 0).
Definition rank (K : kinds) (s t : addr) (m : msg) : nat :=
  match m with
  | MFallback | MDeposit | MGetOwner | MBalanceOf _ | MTotalSupply | MGetAddress _ | MIssue _ _ | MDestroy _ _
  | MTransferOwnership _ | MAcceptOwnership | MDisableTransfer _ => 1
  | MTokenFallback from _ d => fallback_rank K t from d
  | MTransfer to _ d => transfer_rank K s to (default data_none d)
  | MGetExpectedReturnByPath _ _ => 3
  | MWithdrawTokens _ _ _ => 4
  | MWithdrawFromToken _ _ _ | MConvert _ _ | MConvertFor _ _ _ => 5
  | _ => 2
  end.

Lemma fallback_rank_le K t from d : (fallback_rank K t from d <= 5)%nat.
Proof. unfold fallback_rank. repeat case_match; lia. Qed.
Lemma fallback_rank_raw K t from d : is_raw d = true -> (fallback_rank K t from d <= 2)%nat.
Proof. intros Hd. unfold fallback_rank. rewrite Hd. destruct d; [|done]. cbn. repeat case_match; lia. Qed.
Lemma rank_le K s t m : (rank K s t m <= 6)%nat.
Proof.
  destruct m; cbn [rank]; try lia.
  - unfold transfer_rank. destruct (is_contract to); [|lia]. pose proof (fallback_rank_le K to s (default data_none d)). lia.
  - pose proof (fallback_rank_le K t from d). lia.
Qed.
Lemma transfer_rank_raw K s to d : is_raw d = true -> (transfer_rank K s to d <= 3)%nat.
Proof. intros Hd. unfold transfer_rank. destruct (is_contract to); [|lia]. pose proof (fallback_rank_raw K to s d Hd). lia. Qed.
Lemma transfer_rank_simple K s to d : is_raw d = true -> simple K to = true -> (transfer_rank K s to d <= 2)%nat.
Proof.
  intros Hd Hs. unfold transfer_rank, simple in *. destruct (is_contract to); [|lia]. cbn in Hs. apply bool_decide_eq_true in Hs.
  unfold fallback_rank. rewrite Hs. destruct d; [cbn; lia|done].
Qed.
Lemma transfer_rank_hop K s to a j : simple K s = true -> (transfer_rank K s to (hop_data a j) <= 4)%nat.
Proof.
  intros Hs. unfold transfer_rank, fallback_rank. rewrite Hs. unfold hop_data. cbn [has_path is_raw].
  rewrite bool_decide_eq_false_2 by (intros X; apply X; vm_compute; done). repeat case_match; lia.
Qed.

Section rk.
Variable K : kinds.
Variables call1 call2 : bool -> addr -> addr -> Z -> msg -> M rv.
Variable n : nat.
Hypothesis H : forall ro s t v m, (rank K s t m <= n)%nat -> same K (call1 ro s t v m) (call2 ro s t v m).

Lemma r_ecall c to m : (rank K (c_self c) to m <= n)%nat -> same K (ecall call1 c to m) (ecall call2 c to m).
Proof. intros X. by apply H. Qed.
Lemma r_icx_transfer c to v : (1 <= n)%nat -> same K (icx_transfer call1 c to v) (icx_transfer call2 c to v).
Proof. intros X. by apply H. Qed.

Ltac st1 := match goal with
  | |- same _ (ret _) _ => apply same_ret
  | |- same _ (fail _) _ => apply same_fail
  | |- same _ (require _ _) _ => apply same_require
  | |- same _ (this _) _ => apply same_this
  | |- same _ (emit _ _) _ => apply same_emit
  | |- same _ (lift _) _ => apply same_lift
  | |- same _ (as_int _) _ => apply same_as_int
  | |- same _ (as_addr _) _ => apply same_as_addr
  | |- same _ (modify _ _) _ => apply same_modify; done
  | |- same _ (ecall _ _ _ _) _ => apply r_ecall; cbn [rank]; lia
  | |- same _ (icx_transfer _ _ _ _) _ => apply r_icx_transfer; lia
  | |- same _ (bind _ _) (bind _ _) => apply same_bind; [|intros ?]
  | |- same _ (if ?b then _ else _) _ => destruct b eqn:?
  | |- same _ (let '(_, _) := ?p in _) _ => destruct p
  | |- _ => progress (unfold require_owner_only, require_owner_or_manager_only, require_positive_value, require_valid_address, require_not_this,
      require_valid_connector, require_valid_connector_weight, require_valid_path, safe_sub, done_, no_method)
  end.
Ltac st := cbv zeta; repeat (st1; cbv zeta).

Lemma r_irc_transfer_ c from to v d : (transfer_rank K from to d <= S n)%nat -> same K (irc_transfer_ call1 c from to v d) (irc_transfer_ call2 c from to v d).
Proof.
  intros X. unfold irc_transfer_. st. apply r_ecall. cbn [rank]. unfold transfer_rank in X.
  match goal with E : is_contract to = true |- _ => rewrite E in X end. lia.
Qed.
Lemma r_irc_transfer c to v d : (transfer_rank K (c_sender c) to (default data_none d) <= S n)%nat ->
  same K (irc_transfer call1 c to v d) (irc_transfer call2 c to v d).
Proof. intros X. by apply r_irc_transfer_. Qed.
Lemma r_withdrawTokens c token to v : (3 <= n)%nat -> same K (withdrawTokens call1 c token to v) (withdrawTokens call2 c token to v).
Proof. intros X. unfold withdrawTokens. st. apply r_ecall. cbn [rank]. etrans; [apply transfer_rank_raw; done|lia]. Qed.
Lemma r_icx_withdrawTo c v to : (1 <= n)%nat -> same K (icx_withdrawTo call1 c v to) (icx_withdrawTo call2 c v to).
Proof. intros X. unfold icx_withdrawTo. st. Qed.
Lemma r_is_active c : (1 <= n)%nat -> same K (is_active call1 c) (is_active call2 c).
Proof. intros X. unfold is_active. st. Qed.
Lemma r_require_active c : (1 <= n)%nat -> same K (require_active call1 c) (require_active call2 c).
Proof. intros X. unfold require_active. st. by apply r_is_active. Qed.
Lemma r_require_inactive c : (1 <= n)%nat -> same K (require_inactive call1 c) (require_inactive call2 c).
Proof. intros X. unfold require_inactive. st. by apply r_is_active. Qed.
Lemma r_controller_forward c m : (forall t, rank K (c_self c) t m <= n)%nat -> same K (controller_forward call1 c m) (controller_forward call2 c m).
Proof. intros X. unfold controller_forward. st. apply r_ecall. apply X. Qed.
Lemma r_getConnectorBalance c t : (1 <= n)%nat -> same K (getConnectorBalance call1 c t) (getConnectorBalance call2 c t).
Proof. intros X. unfold getConnectorBalance. st. Qed.
Lemma r_token_supply c : (1 <= n)%nat -> same K (token_supply call1 c) (token_supply call2 c).
Proof. intros X. unfold token_supply. st. Qed.
Lemma r_with_fee c x y : same K (with_fee c x y) (with_fee c x y).
Proof. unfold with_fee, getFinalAmount. st. Qed.
Lemma r_get_purchase_return c t amount b : (1 <= n)%nat -> same K (get_purchase_return call1 c t amount b) (get_purchase_return call2 c t amount b).
Proof.
  intros X. unfold get_purchase_return. st; first [by apply r_require_active|by apply r_token_supply|by apply r_getConnectorBalance|apply r_with_fee].
Qed.
Lemma r_get_sale_return c t amount : (1 <= n)%nat -> same K (get_sale_return call1 c t amount) (get_sale_return call2 c t amount).
Proof.
  intros X. unfold get_sale_return. st; first [by apply r_require_active|by apply r_token_supply|by apply r_getConnectorBalance|apply r_with_fee].
Qed.
Lemma r_get_cross c from to amount b : (1 <= n)%nat ->
  same K (get_cross_connector_return call1 c from to amount b) (get_cross_connector_return call2 c from to amount b).
Proof.
  intros X. unfold get_cross_connector_return.
  st; first [by apply r_require_active|by apply r_token_supply|by apply r_getConnectorBalance|apply r_with_fee].
Qed.
Lemma r_price c t supply : (1 <= n)%nat -> same K (price_data_update call1 c t supply) (price_data_update call2 c t supply).
Proof. intros X. unfold price_data_update. st. by apply r_getConnectorBalance. Qed.
Ltac sub := first [by apply r_get_purchase_return|by apply r_get_sale_return|by apply r_get_cross|by apply r_token_supply
  |by apply r_getConnectorBalance|by apply r_price|by apply r_is_active|by apply r_require_active|by apply r_require_inactive].
Lemma r_buy c trader t amount z : (1 <= n)%nat -> same K (buy call1 c trader t amount z) (buy call2 c trader t amount z).
Proof. intros X. unfold buy. st; sub. Qed.
(* what is sent to the trader *)
Definition back (trader : addr) : nat := if simple K trader then 2 else 3.
Lemma back_rank s trader : (transfer_rank K s trader data_result <= back trader)%nat.
Proof. unfold back. destruct (simple K trader) eqn:E; [by apply transfer_rank_simple|by apply transfer_rank_raw]. Qed.
Lemma r_sell c trader t amount z : (back trader <= n)%nat -> same K (sell call1 c trader t amount z) (sell call2 c trader t amount z).
Proof.
  intros X. assert (1 <= n)%nat by (unfold back in X; destruct (simple K trader); lia).
  unfold sell. st; try sub; apply r_ecall; cbn [rank]; (etrans; [apply back_rank|lia]).
Qed.
Lemma r_convert_cross c trader from to amount z : (back trader <= n)%nat ->
  same K (convert_cross call1 c trader from to amount z) (convert_cross call2 c trader from to amount z).
Proof.
  intros X. assert (1 <= n)%nat by (unfold back in X; destruct (simple K trader); lia).
  unfold convert_cross. st; try sub; apply r_ecall; cbn [rank]; (etrans; [apply back_rank|lia]).
Qed.
Lemma r_conv_convert c trader from to amount z : (back trader <= n)%nat ->
  same K (conv_convert call1 c trader from to amount z) (conv_convert call2 c trader from to amount z).
Proof.
  intros X. assert (1 <= n)%nat by (unfold back in X; destruct (simple K trader); lia).
  unfold conv_convert. st; first [by apply r_buy|by apply r_sell|by apply r_convert_cross].
Qed.
Lemma r_getReturn c from to amount : (1 <= n)%nat -> same K (getReturn call1 c from to amount) (getReturn call2 c from to amount).
Proof. intros X. unfold getReturn. st; sub. Qed.
Lemma r_conv_tokenFallback c from v d : (1 <= n)%nat -> (is_raw d = false -> (back from <= n)%nat) ->
  same K (conv_tokenFallback call1 c from v d) (conv_tokenFallback call2 c from v d).
Proof.
  intros X Y. unfold conv_tokenFallback. st; try sub. destruct (conv_request d) as [[to z]|] eqn:E; [|apply same_fail].
  st. apply r_conv_convert. apply Y. by destruct d.
Qed.
Lemma r_addConnector c t weight b : (1 <= n)%nat -> same K (addConnector call1 c t weight b) (addConnector call2 c t weight b).
Proof. intros X. unfold addConnector. st. sub. Qed.
Lemma r_updateRegistry c : (1 <= n)%nat -> same K (updateRegistry call1 c) (updateRegistry call2 c).
Proof. intros X. unfold updateRegistry. st. Qed.
Lemma r_conv_withdrawTokens c t to v : (3 <= n)%nat -> same K (conv_withdrawTokens call1 c t to v) (conv_withdrawTokens call2 c t to v).
Proof. intros X. unfold conv_withdrawTokens. st; [apply r_is_active; lia|by apply r_withdrawTokens]. Qed.
Lemma r_convert_by_path c z : (4 <= n)%nat -> simple K (c_self c) = true -> forall rest from amount,
  same K (convert_by_path call1 c from rest amount z) (convert_by_path call2 c from rest amount z).
Proof.
  intros X Y. fix IH 1. intros [|f [|t rest]] from amount; cbn [convert_by_path]; [apply same_ret|apply same_ret|]. st; [|apply IH].
  apply r_ecall. cbn [rank]. etrans; [by apply transfer_rank_hop|done].
Qed.
Lemma r_expected_return c : (2 <= n)%nat -> forall rest from amount,
  same K (expected_return call1 c from rest amount) (expected_return call2 c from rest amount).
Proof.
  intros X. fix IH 1. intros [|f [|t rest]] from amount; cbn [expected_return]; [apply same_ret|apply same_ret|]. st.
  match goal with |- same _ (match ?r with _ => _ end) _ => destruct r end; try apply same_fail. apply IH.
Qed.
Lemma r_convert_for_internal c p x z a : (4 <= n)%nat -> simple K (c_self c) = true ->
  same K (convert_for_internal call1 c p x z a) (convert_for_internal call2 c p x z a).
Proof.
  intros X Y. unfold convert_for_internal. destruct p as [|p0 rest]; [apply same_fail|]. st; [by apply r_convert_by_path|].
  apply r_ecall. cbn [rank]. etrans; [by apply transfer_rank_raw|lia].
Qed.
Lemma r_net_tokenFallback c from v d : (has_path d = true -> (4 <= n)%nat) -> simple K (c_self c) = true ->
  same K (net_tokenFallback call1 c from v d) (net_tokenFallback call2 c from v d).
Proof.
  intros X Y. unfold net_tokenFallback. st. destruct (convert_bytes_data d from) as [rq|] eqn:E; [|apply same_fail].
  st. 1: destruct (json_int (rq_min rq)); st. apply r_convert_for_internal; [|done]. apply X.
  destruct d as [|m]; [done|]. cbn in *. apply bool_decide_eq_true. intros E'. by rewrite E' in E.
Qed.
Lemma r_convertFor c t z a : (4 <= n)%nat -> simple K (c_self c) = true -> same K (convertFor call1 c t z a) (convertFor call2 c t z a).
Proof.
  intros X Y. unfold convertFor. destruct (convert_path t) as [p|]; [|apply same_fail]. st.
  destruct p as [|p0 rest]; [apply same_fail|]. st. by apply r_convert_for_internal.
Qed.
Lemma r_getExpected c t z : (2 <= n)%nat -> same K (getExpectedReturnByPath call1 c t z) (getExpectedReturnByPath call2 c t z).
Proof.
  intros X. unfold getExpectedReturnByPath. destruct (convert_path t) as [p|]; [|apply same_fail]. st.
  destruct p as [|p0 rest]; [apply same_fail|]. by apply r_expected_return.
Qed.

Lemma r_handler k c m : K (c_self c) = Some k -> (rank K (c_sender c) (c_self c) m <= S n)%nat ->
  same K (honest_handler call1 k c m) (honest_handler call2 k c m).
Proof.
  intros HK X.
  destruct k; cbn [honest_handler]; [..|apply same_fail];
    unfold irc_handler, icx_handler, flex_handler, conv_handler, net_handler, reg_handler, owned_methods, irc_views, managed_methods; destruct m; cbn [rank] in X;
    unfold getConnectorAt, getFinalAmount, registerAddress, unregisterAddress, acceptOwnerShip, transferOwnerShip, acceptManagement, transferManagement,
      updateConnector, disableConnectorPurchases, restoreRegistry, disableRegistryUpdate, disableConversions, setConversionFee, registerIcxToken,
      flex_issue, flex_destroy, flex_disableTransfer, flex_transfer, icx_deposit, icx_transferTo;
    st.
  all: first
    [ by apply r_irc_transfer | apply r_withdrawTokens; lia | apply r_icx_withdrawTo; lia | apply r_conv_withdrawTokens; lia
    | apply r_is_active; lia | apply r_controller_forward; intros ?; cbn [rank]; lia | apply r_addConnector; lia | apply r_updateRegistry; lia
    | apply r_getConnectorBalance; lia | apply r_getReturn; lia | apply r_getExpected; lia
    | apply r_convertFor; [lia|unfold simple; rewrite HK; by destruct (is_contract (c_self c))]
    | by destruct (s_conn_tokens _ !! _); st | idtac ].
  - unfold fallback_rank in X. rewrite HK in X. apply r_conv_tokenFallback.
    + destruct (is_raw d); [lia|]. destruct (simple K from); lia.
    + intros Hd. rewrite Hd in X. unfold back. destruct (simple K from); lia.
  - unfold fallback_rank in X. rewrite HK in X. apply r_net_tokenFallback.
    + intros Hd. rewrite Hd in X. lia.
    + unfold simple. rewrite HK. by destruct (is_contract (c_self c)).
Qed.
End rk.

Lemma rank_pos K s t m : (1 <= rank K s t m)%nat.
Proof. destruct m; cbn [rank]; unfold transfer_rank, fallback_rank; repeat case_match; lia. Qed.
Lemma same_get_bind {B} K t (f1 f2 : score -> M B) :
  (forall sc, K t = Some (s_kind sc) -> same K (f1 sc) (f2 sc)) -> same K (bind (get_score t) f1) (bind (get_score t) f2).
Proof.
  intros Hf w Hw. unfold bind, get_score. destruct (w_scores w !! t) as [sc|] eqn:E; [|done].
  apply Hf; [|done]. rewrite <- (Hw t). unfold kind_at. by rewrite E.
Qed.

Section exec.
Variable adv : adversary.
Variable K : kinds.
Hypothesis HK : forall a, K a <> Some KAdv.

(* more frames than the rank change nothing *)
Theorem exec_rank : forall n f1 f2 ro s t v m, (rank K s t m <= n)%nat -> (n <= f1)%nat -> (n <= f2)%nat ->
  same K (exec adv f1 ro s t v m) (exec adv f2 ro s t v m).
Proof.
  induction n as [|n IH]; intros f1 f2 ro s t v m Hm H1 H2; [pose proof (rank_pos K s t m); lia|].
  destruct f1 as [|f1]; [lia|]. destruct f2 as [|f2]; [lia|]. cbn [exec].
  apply same_bind; [apply same_require|intros _]. apply same_bind; [apply same_move|intros _].
  destruct t as [a|a]; [destruct m; first [apply same_ret|apply same_fail]|].
  apply same_get_bind. intros sc Hk.
  assert (Hh : s_kind sc <> KAdv -> forall c, c_self c = SCORE a -> c_sender c = s ->
    same K (honest_handler (exec adv f1) (s_kind sc) c m) (honest_handler (exec adv f2) (s_kind sc) c m)).
  { intros HnA c Hc Hs. apply (r_handler K (exec adv f1) (exec adv f2) n); [|by rewrite Hc|by rewrite Hc, Hs].
    intros ro' s' t' v' m' Hr. apply IH; [done|lia|lia]. }
  destruct (s_kind sc) eqn:Ek; try (by destruct (HK (SCORE a)));
    (apply same_bind; [apply same_require|intros _]); (apply same_bind; [apply same_require|intros _]); by apply Hh.
Qed.

Theorem exec_six fuel ro s t v m w : agree K w -> (6 <= fuel)%nat -> exec adv fuel ro s t v m w = exec adv 6 ro s t v m w.
Proof. intros Hw Hf. apply (exec_rank 6 fuel 6 ro s t v m); [apply rank_le|done|lia|done]. Qed.
End exec.

(* --------------------------------------------------------- transactions ---- *)
Lemma agree_self w : agree (kind_at w) w.
Proof. by intros a. Qed.
Definition with_kind (K : kinds) (a : addr) (k : kind) : kinds := fun b => if bool_decide (b = a) then Some k else K b.
Lemma agree_put K a k w : agree K w -> agree (with_kind K a k) (World (w_icx w) (<[a := blank k]> (w_scores w)) (w_log w)).
Proof.
  intros Hw b. unfold kind_at, with_kind. cbn [w_scores]. case_bool_decide as E.
  - subst b. by rewrite lookup_insert.
  - rewrite lookup_insert_ne by done. apply Hw.
Qed.

Lemma same_irc_install K c n s i d : same K (irc_install c n s i d) (irc_install c n s i d).
Proof.
  unfold irc_install. do 2 (apply same_bind; [apply same_require|intros _]). cbv zeta.
  do 4 (apply same_bind; [by apply same_modify|intros _]). by apply same_modify.
Qed.
Lemma same_owned_install K c : same K (owned_install c) (owned_install c).
Proof. unfold owned_install. apply same_bind; [by apply same_modify|intros _]. by apply same_modify. Qed.

Lemma install_six adv K fuel c i : (forall a, K a <> Some KAdv) -> (6 <= fuel)%nat ->
  same K (run_install adv fuel c i) (run_install adv 6 c i).
Proof.
  intros HK Hf. destruct i; cbn [run_install].
  - apply same_irc_install.
  - unfold icx_install. apply same_bind; [apply same_irc_install|intros _; apply same_owned_install].
  - unfold flex_install. apply same_bind; [apply same_irc_install|intros _]. apply same_bind; [apply same_owned_install|intros _].
    apply same_bind; [by apply same_modify|intros _; apply same_emit].
  - unfold conv_install, controller_install.
    apply same_bind; [apply same_require|intros _]. apply same_bind; [apply same_require|intros _].
    apply same_bind. { apply same_bind; [apply same_require|intros _]. apply same_bind; [apply same_owned_install|intros _]. by apply same_modify. }
    intros _. do 5 (apply same_bind; [by apply same_modify|intros _]).
    destruct connector as [t|]; [|apply same_ret]. destruct (is_valid_address t); [|apply same_ret].
    apply (r_addConnector K (exec adv fuel) (exec adv 6) 6); [|lia].
    intros ro s t' v m Hr. by apply exec_rank with (n := 6%nat).
  - apply same_owned_install.
  - unfold reg_install. apply same_bind; [apply same_owned_install|intros _]. unfold registerAddress.
    unfold require_owner_only, require_valid_address. repeat match goal with
      | |- same _ (require _ _) _ => apply same_require | |- same _ (this _) _ => apply same_this | |- same _ (emit _ _) _ => apply same_emit
      | |- same _ (modify _ _) _ => by apply same_modify | |- same _ (bind _ _) _ => apply same_bind; [|intros ?] end.
  - apply same_ret.
Qed.

(* one transaction: the same result with every depth limit from six on, and no unknown contract comes into being *)
Definition no_unknown (w : world) : Prop := forall a, kind_at w a <> Some KAdv.
Definition deploys_unknown (t : tx) : Prop := match t with TDeploy _ _ IAdv => True | _ => False end.
Lemma tx_six adv fuel t w : no_unknown w -> ~ deploys_unknown t -> (6 <= fuel)%nat ->
  run_tx adv fuel t w = run_tx adv 6 t w /\ forall r w', run_tx adv fuel t w = Ok (r, w') -> no_unknown w'.
Proof.
  intros HN HD Hf. assert (back : forall K w', agree K w' -> (forall a, K a <> Some KAdv) -> no_unknown w').
  { intros K w' A HK a. by rewrite (A a). }
  destruct t as [n to v m|n a i]; cbn [run_tx].
  - destruct (exec_rank adv (kind_at w) HN 6 fuel 6 false (EOA n) to v m (rank_le _ _ _ _) Hf (Nat.le_refl 6) w (agree_self w)) as [E P].
    split; [done|]. intros r w' X. exact (back _ _ (P r w' X) HN).
  - destruct (bool_decide (a = 0%N)); [done|]. destruct (w_scores w !! SCORE a) as [sc|]; [done|].
    set (K := with_kind (kind_at w) (SCORE a) (install_kind i)).
    assert (HK : forall b, K b <> Some KAdv).
    { intros b. subst K. unfold with_kind. case_bool_decide; [|apply HN]. by destruct i. }
    unfold bind at 1 3 5. unfold put_score.
    pose proof (agree_put (kind_at w) (SCORE a) (install_kind i) w (agree_self w)) as A. fold K in A.
    pose proof (same_bind K _ _ (fun _ => ret RNone) (fun _ => ret RNone)
      (install_six adv K fuel (Ctx (SCORE a) (EOA n) 0 false) i HK Hf) (fun _ => same_ret K RNone) _ A) as [E P].
    split; [exact E|]. intros r w' X. exact (back _ _ (P r w' X) HK).
Qed.
