(* What the read-only methods of genuine contracts answer, and what a converter's quotes are. *)
From Coq Require Import String Ascii ZArith Lia.
From stdpp Require Import base countable list numbers strings gmap relations.
From Verif Require Import Res FormulaConsts FormulaModel Codec World WorldBasics WorldSteps WorldExec WorldSpec WorldInv WorldMoney WorldAuth WorldNet WorldCalls.
Local Open Scope Z_scope.
Local Open Scope M_scope.

Section views.
Variable adv : adversary.

Lemma answers_intro w t sc m r : is_contract t = true -> w_scores w !! t = Some sc -> s_kind sc <> KAdv -> is_readonly m = true ->
  (forall f c, c_self c = t -> honest_handler (exec adv f) (s_kind sc) c m w = Ok (r, w)) -> answers adv w t m r.
Proof.
  intros Ht Hsc Hk Hm H f ro s. rewrite (exec_honest adv f ro s t m w sc Ht Hsc Hk). rewrite Hm, andb_false_r. by apply H.
Qed.
Lemma answers_inv f ro s t m w r r0 w' : answers adv w t m r0 -> exec adv f ro s t 0 m w = Ok (r, w') -> r = r0 /\ w' = w.
Proof. intros Ha H. destruct f as [|f]; [done|]. rewrite Ha in H. apply Ok_inj in H. by injection H. Qed.

Ltac answer := eapply answers_intro; [done|eassumption|congruence|done|];
  let f := fresh in let c := fresh in let E := fresh in intros f c E;
  match goal with K : s_kind _ = _ |- _ => rewrite K end; cbn -[bind ret];
  unfold this, get_score; rewrite ?E; unfold bind;
  match goal with H : w_scores _ !! _ = Some _ |- _ => rewrite H end; reflexivity.

Theorem token_answers w t : is_contract t = true -> is_token w t ->
  answers adv w t MName (RStr (name_of w t)) /\ answers adv w t MSymbol (RStr (symbol_of w t)) /\
  answers adv w t MDecimals (RInt (decimals_of w t)) /\ answers adv w t MTotalSupply (RInt (supply_of w t)) /\
  forall a, answers adv w t (MBalanceOf a) (RInt (balance_of w t a)).
Proof.
  intros Ht HT.
  assert (exists sc, w_scores w !! t = Some sc /\ token_kind (s_kind sc) = true) as (sc & Hsc & Hk) by by apply token_sc.
  unfold name_of, symbol_of, decimals_of, supply_of, balance_of, var. rewrite Hsc.
  destruct (s_kind sc) eqn:K; try discriminate Hk; (repeat split; [..|intros a]); answer.
Qed.
Theorem owned_answers w t : is_contract t = true -> is_owned w t ->
  answers adv w t MGetOwner (RAddr (owner_of w t)) /\ answers adv w t MGetNewOwner (RAddr (pending_owner_of w t)).
Proof.
  intros Ht (k & Hk & H1 & H2). apply kind_at_Some in Hk as (sc & Hsc & K).
  unfold owner_of, pending_owner_of, var. rewrite Hsc.
  destruct k; try done; split; answer.
Qed.
Theorem flex_answers w t : is_contract t = true -> kind_at w t = Some KFlex ->
  answers adv w t MGetTransferPossibility (RBool (transferable w t)).
Proof.
  intros Ht Hk. apply kind_at_Some in Hk as (sc & Hsc & K). unfold transferable, var. rewrite Hsc. answer.
Qed.
Theorem conv_answers w t : is_contract t = true -> kind_at w t = Some KConv ->
  answers adv w t MGetManager (match manager_of w t with Some a => RAddr a | None => RNone end) /\
  answers adv w t MGetNewManager (match pending_manager_of w t with Some a => RAddr a | None => RNone end) /\
  answers adv w t MGetToken (RAddr (token_of w t)) /\ answers adv w t MGetRegistry (RAddr (registry_of w t)) /\
  answers adv w t MGetPreviousRegistry (RAddr (prev_registry_of w t)) /\
  answers adv w t MIsAllowRegistryUpdate (RBool (registry_updates_allowed w t)) /\
  answers adv w t MGetConnectorTokenCount (RInt (Z.of_nat (length (connectors_of w t)))) /\
  answers adv w t MGetMaxConversionFee (RInt (max_fee_of w t)) /\ answers adv w t MGetConversionFee (RInt (fee_of w t)) /\
  answers adv w t MIsConversionsEnabled (RBool (conversions_enabled w t)) /\
  forall a, answers adv w t (MGetConnector a) (RConn (if cn_set (connector_of w t a) then Some (connector_of w t a) else None)).
Proof.
  intros Ht Hk. apply kind_at_Some in Hk as (sc & Hsc & K).
  unfold manager_of, pending_manager_of, token_of, registry_of, prev_registry_of, registry_updates_allowed, connectors_of,
    max_fee_of, fee_of, conversions_enabled, connector_of, var. rewrite Hsc.
  repeat split; [..|intros a]; answer.
Qed.
Theorem net_answers w t : is_contract t = true -> kind_at w t = Some KNet ->
  forall a, answers adv w t (MGetIcxTokenRegistered a) (RBool (icx_registered w t a)).
Proof.
  intros Ht Hk a. apply kind_at_Some in Hk as (sc & Hsc & K). unfold icx_registered, var. rewrite Hsc. answer.
Qed.
Theorem reg_answers w t : is_contract t = true -> kind_at w t = Some KReg ->
  forall n, answers adv w t (MGetAddress n) (RAddr (registered w t n)).
Proof.
  intros Ht Hk a. apply kind_at_Some in Hk as (sc & Hsc & K). unfold registered, var. rewrite Hsc. answer.
Qed.
End views.
