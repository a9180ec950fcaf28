(* Failures of nested calls are never caught by the contracts (C55). *)
From Coq Require Import String Ascii ZArith Lia.
From stdpp Require Import base countable list numbers strings gmap relations.
From Verif Require Import Res Codec World WorldBasics WorldSteps WorldExec WorldSpec WorldNet.
Local Open Scope Z_scope.
Local Open Scope M_scope.

(* m' succeeds, in the same way, whenever m succeeds *)
Definition mle {X} (m m' : M X) : Prop := forall w x, m w = Ok x -> m' w = Ok x.
Lemma mle_refl {X} (m : M X) : mle m m.
Proof. by intros w x. Qed.
Lemma mle_bind {X Y} (m m' : M X) (k k' : X -> M Y) : mle m m' -> (forall a, mle (k a) (k' a)) -> mle (bind m k) (bind m' k').
Proof.
  intros H1 H2 w [y w'] H. apply bind_Ok in H as (a & w1 & Ha & H). apply H1 in Ha. apply H2 in H. apply bind_Ok. by exists a, w1.
Qed.
Ltac le1 :=
  lazymatch goal with
  | |- mle (bind _ _) (bind _ _) => first [assumption | apply mle_bind; [|intros ?]]
  | |- mle (match ?x with _ => _ end) _ => destruct x
  | |- mle ?a ?b => first [constr_eq a b; apply mle_refl | solve [eauto 2 with le]]
  end.
Create HintDb le.
Global Hint Resolve mle_refl : le.
Ltac les := repeat (cbv zeta; le1).

Section le.
Variables call call' : bool -> addr -> addr -> Z -> msg -> M rv.
Hypothesis C : forall ro s t v m, mle (call ro s t v m) (call' ro s t v m).
Lemma le_ecall c to m : mle (ecall call c to m) (ecall call' c to m).
Proof. apply C. Qed.
Hint Resolve C le_ecall : le.
Lemma le_icx_transfer c to v : mle (icx_transfer call c to v) (icx_transfer call' c to v).
Proof. unfold icx_transfer. les. Qed.
Hint Resolve le_icx_transfer : le.
Lemma le_irc_transfer_ c from to v d : mle (irc_transfer_ call c from to v d) (irc_transfer_ call' c from to v d).
Proof. unfold irc_transfer_. les. Qed.
Hint Resolve le_irc_transfer_ : le.
Lemma le_irc_transfer c to v d : mle (irc_transfer call c to v d) (irc_transfer call' c to v d).
Proof. unfold irc_transfer. les. Qed.
Hint Resolve le_irc_transfer : le.
Lemma le_withdrawTokens c token to v : mle (withdrawTokens call c token to v) (withdrawTokens call' c token to v).
Proof. unfold withdrawTokens. les. Qed.
Hint Resolve le_withdrawTokens : le.
Lemma le_icx_withdrawTo c v to : mle (icx_withdrawTo call c v to) (icx_withdrawTo call' c v to).
Proof. unfold icx_withdrawTo. les. Qed.
Hint Resolve le_icx_withdrawTo : le.
Lemma le_icx_transferTo c to v d : mle (icx_transferTo call c to v d) (icx_transferTo call' c to v d).
Proof. unfold icx_transferTo. les. Qed.
Hint Resolve le_icx_transferTo : le.
Lemma le_flex_transfer c to v d : mle (flex_transfer call c to v d) (flex_transfer call' c to v d).
Proof. unfold flex_transfer. les. Qed.
Hint Resolve le_flex_transfer : le.
Lemma le_is_active c : mle (is_active call c) (is_active call' c).
Proof. unfold is_active. les. Qed.
Hint Resolve le_is_active : le.
Lemma le_require_active c : mle (require_active call c) (require_active call' c).
Proof. unfold require_active. les. Qed.
Hint Resolve le_require_active : le.
Lemma le_require_inactive c : mle (require_inactive call c) (require_inactive call' c).
Proof. unfold require_inactive. les. Qed.
Hint Resolve le_require_inactive : le.
Lemma le_controller_forward c m : mle (controller_forward call c m) (controller_forward call' c m).
Proof. unfold controller_forward. les. Qed.
Hint Resolve le_controller_forward : le.
Lemma le_getConnectorBalance c t : mle (getConnectorBalance call c t) (getConnectorBalance call' c t).
Proof. unfold getConnectorBalance. les. Qed.
Hint Resolve le_getConnectorBalance : le.
Lemma le_token_supply c : mle (token_supply call c) (token_supply call' c).
Proof. unfold token_supply. les. Qed.
Hint Resolve le_token_supply : le.
Lemma le_get_purchase_return c t amount from_conversion : mle (get_purchase_return call c t amount from_conversion) (get_purchase_return call' c t amount from_conversion).
Proof. unfold get_purchase_return. les. Qed.
Hint Resolve le_get_purchase_return : le.
Lemma le_get_sale_return c t amount : mle (get_sale_return call c t amount) (get_sale_return call' c t amount).
Proof. unfold get_sale_return. les. Qed.
Hint Resolve le_get_sale_return : le.
Lemma le_get_cross_connector_return c from to amount from_conversion : mle (get_cross_connector_return call c from to amount from_conversion) (get_cross_connector_return call' c from to amount from_conversion).
Proof. unfold get_cross_connector_return. les. Qed.
Hint Resolve le_get_cross_connector_return : le.
Lemma le_price_data_update c t supply : mle (price_data_update call c t supply) (price_data_update call' c t supply).
Proof. unfold price_data_update. les. Qed.
Hint Resolve le_price_data_update : le.
Lemma le_buy c trader t amount min_return : mle (buy call c trader t amount min_return) (buy call' c trader t amount min_return).
Proof. unfold buy. les. Qed.
Hint Resolve le_buy : le.
Lemma le_sell c trader t amount min_return : mle (sell call c trader t amount min_return) (sell call' c trader t amount min_return).
Proof. unfold sell. les. Qed.
Hint Resolve le_sell : le.
Lemma le_convert_cross c trader from to amount min_return : mle (convert_cross call c trader from to amount min_return) (convert_cross call' c trader from to amount min_return).
Proof. unfold convert_cross. les. Qed.
Hint Resolve le_convert_cross : le.
Lemma le_conv_convert c trader from to amount min_return : mle (conv_convert call c trader from to amount min_return) (conv_convert call' c trader from to amount min_return).
Proof. unfold conv_convert. les. Qed.
Hint Resolve le_conv_convert : le.
Lemma le_getReturn c from to amount : mle (getReturn call c from to amount) (getReturn call' c from to amount).
Proof. unfold getReturn. les. Qed.
Hint Resolve le_getReturn : le.
Lemma le_conv_tokenFallback c from v d : mle (conv_tokenFallback call c from v d) (conv_tokenFallback call' c from v d).
Proof. unfold conv_tokenFallback. les. Qed.
Hint Resolve le_conv_tokenFallback : le.
Lemma le_addConnector c t weight venabled : mle (addConnector call c t weight venabled) (addConnector call' c t weight venabled).
Proof. unfold addConnector. les. Qed.
Hint Resolve le_addConnector : le.
Lemma le_updateRegistry c : mle (updateRegistry call c) (updateRegistry call' c).
Proof. unfold updateRegistry. les. Qed.
Hint Resolve le_updateRegistry : le.
Lemma le_conv_withdrawTokens c t to v : mle (conv_withdrawTokens call c t to v) (conv_withdrawTokens call' c t to v).
Proof. unfold conv_withdrawTokens. les. Qed.
Hint Resolve le_conv_withdrawTokens : le.
Lemma le_convert_by_path c min : forall rest from amount, mle (convert_by_path call c from rest amount min) (convert_by_path call' c from rest amount min).
Proof. refine (list_ind2 _ _ _ _); [intros; apply mle_refl..|]. intros a b rest IH from amount. cbn [convert_by_path]. les. Qed.
Hint Resolve le_convert_by_path : le.
Lemma le_expected_return c : forall rest from amount, mle (expected_return call c from rest amount) (expected_return call' c from rest amount).
Proof. refine (list_ind2 _ _ _ _); [intros; apply mle_refl..|]. intros a b rest IH from amount. cbn [expected_return]. les. Qed.
Hint Resolve le_expected_return : le.
Lemma le_convert_for_internal c p x min a : mle (convert_for_internal call c p x min a) (convert_for_internal call' c p x min a).
Proof. unfold convert_for_internal. les. Qed.
Hint Resolve le_convert_for_internal : le.
Lemma le_net_tokenFallback c from v d : mle (net_tokenFallback call c from v d) (net_tokenFallback call' c from v d).
Proof. unfold net_tokenFallback. les. Qed.
Lemma le_convertFor c t z a : mle (convertFor call c t z a) (convertFor call' c t z a).
Proof. unfold convertFor. les. Qed.
Lemma le_getExpectedReturnByPath c t z : mle (getExpectedReturnByPath call c t z) (getExpectedReturnByPath call' c t z).
Proof. unfold getExpectedReturnByPath. les. Qed.
Hint Resolve le_net_tokenFallback le_convertFor le_getExpectedReturnByPath : le.
Theorem handler_le k c m : mle (honest_handler call k c m) (honest_handler call' k c m).
Proof.
  destruct k, m; cbn; unfold done_; les.
Qed.
(* programs that let failures of their calls propagate *)
Fixpoint never_catches (p : prog) : Prop :=
  match p with
  | PRet _ | PFail => True
  | PCall _ _ _ _ k => forall r, never_catches (k r)
  | PTry _ _ _ _ _ => False
  | PGet k => forall z, never_catches (k z)
  | PBalance _ k => forall z, never_catches (k z)
  | PSet _ k | PEmit _ k => never_catches k
  end.
Lemma prog_le c : forall p, never_catches p -> mle (run_prog call c p) (run_prog call' c p).
Proof.
  induction p as [r| |ro to v m k IH|ro to v m k IH|k IH|z k IH|a k IH|z k IH]; intros H; cbn [run_prog]; cbn in H.
  - apply mle_refl.
  - apply mle_refl.
  - apply mle_bind; [apply C|]. intros r. by apply IH.
  - done.
  - apply mle_bind; [apply mle_refl|]. intros r. by apply IH.
  - apply mle_bind; [apply mle_refl|]. intros r. apply mle_bind; [apply mle_refl|]. intros ?. by apply IH.
  - intros w x. by apply IH.
  - apply mle_bind; [apply mle_refl|]. intros r. apply mle_bind; [apply mle_refl|]. intros ?. by apply IH.
Qed.
End le.
Theorem exec_deeper adv : (forall a c m, never_catches (adv a c m)) -> forall f ro s t v m, mle (exec adv f ro s t v m) (exec adv (S f) ro s t v m).
Proof.
  intros HA. induction f as [|f IH]; intros ro s t v m; [by intros w x H|].
  change (exec adv (S (S f)) ro s t v m) with (
      require (negb (ro && negb (v =? 0))) "read-only";;
      move_icx s t v;;
      match t with
      | EOA _ => match m with MFallback => ret RNone | _ => fail "not a contract" end
      | SCORE _ =>
          sc <~ get_score t;
          match s_kind sc with
          | KAdv => let c := Ctx t s v ro in run_prog (exec adv (S f)) c (adv t c m)
          | k =>
              require (is_payable k m || (v =? 0)) "not payable";;
              require (negb (ro && negb (is_readonly m))) "read-only";;
              honest_handler (exec adv (S f)) k (Ctx t s v (ro || is_readonly m)) m
          end
      end).
  cbn [exec]. do 2 (apply mle_bind; [apply mle_refl|intros _]). destruct t as [n|n]; [apply mle_refl|].
  apply mle_bind; [apply mle_refl|intros sc]. destruct (s_kind sc).
  all: try (do 2 (apply mle_bind; [apply mle_refl|intros _]); by apply handler_le).
  cbv zeta. by apply prog_le.
Qed.
