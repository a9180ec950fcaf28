(* Single calls of genuine contracts: exact conditions and effects (C14, C17, C20, C21, C23, C24, C26, ...). *)
From Coq Require Import String Ascii ZArith Lia.
From stdpp Require Import base countable list numbers strings gmap relations.
From Verif Require Import Res FormulaConsts FormulaModel Codec World WorldBasics WorldSteps WorldExec WorldSpec WorldInv WorldMoney WorldAuth WorldNet.
Local Open Scope Z_scope.
Local Open Scope M_scope.

Section calls.
Variable adv : adversary.

(* a call without coins of a genuine contract is its method *)
Lemma exec_honest f ro s t m w sc : is_contract t = true -> w_scores w !! t = Some sc -> s_kind sc <> KAdv ->
  exec adv (S f) ro s t 0 m w =
    if ro && negb (is_readonly m) then Err "read-only"%string
    else honest_handler (exec adv f) (s_kind sc) (Ctx t s 0 (ro || is_readonly m)) m w.
Proof.
  intros Ht Hsc Hk. cbn [exec].
  unfold bind at 1. unfold require at 1. rewrite andb_false_r. cbn [negb].
  unfold ret at 1. unfold bind at 1. unfold move_icx. cbn [Z.eqb].
  destruct t as [n|n]; [done|].
  unfold bind at 1. unfold get_score. rewrite Hsc.
  destruct (s_kind sc) eqn:K; try done;
    unfold bind at 1; unfold require at 1; rewrite orb_true_r; cbn [ret];
    unfold bind at 1; unfold require at 1; destruct (ro && negb (is_readonly m)); reflexivity.
Qed.
Lemma exec_honest_Ok f ro s t m w sc k r w' : is_contract t = true -> w_scores w !! t = Some sc -> s_kind sc = k -> k <> KAdv ->
  (exec adv (S f) ro s t 0 m w = Ok (r, w') <->
   (ro = false \/ is_readonly m = true) /\ honest_handler (exec adv f) k (Ctx t s 0 (ro || is_readonly m)) m w = Ok (r, w')).
Proof.
  intros Ht Hsc Hk Ha. subst k. rewrite (exec_honest _ _ _ _ _ _ _ Ht Hsc Ha).
  destruct ro, (is_readonly m); cbn; split; try tauto; try done; intros [[?|?] ?]; done.
Qed.

End calls.

Lemma Ok_world {A} (m : M A) w a w1 w2 : m w = Ok (a, w1) -> w1 = w2 -> m w = Ok (a, w2).
Proof. by intros ? <-. Qed.
(* build a successful run *)
Lemma lookup_wlog a e w b : w_scores (wlog a e w) !! b = w_scores w !! b.
Proof. done. Qed.
Ltac bools_goal := repeat match goal with
  | |- (_ && _) = true => apply andb_true_iff; split
  | |- negb _ = true => apply negb_true_iff
  | |- (_ <? _) = true => apply Z.ltb_lt
  | |- (_ <? _) = false => apply Z.ltb_ge
  | |- (_ <=? _) = true => apply Z.leb_le
  | |- (_ <=? _) = false => apply Z.leb_gt
  | |- (_ =? _) = true => apply Z.eqb_eq
  | |- bool_decide _ = true => apply bool_decide_eq_true
  end; try lia.
Ltac mlook := cbn [c_self c_sender c_value]; rewrite ?lookup_wlog, ?lookup_wput; first [eassumption|reflexivity].
Ltac mcond := cbn [c_self c_sender c_value]; try first
  [ assumption | solve [bools_goal]
  | apply bool_decide_eq_true; first [assumption|congruence|done|lia]
  | apply orb_true_iff; first [left; assumption | right; assumption
       | left; apply bool_decide_eq_true; first [assumption|congruence|done]
       | right; apply bool_decide_eq_true; first [assumption|congruence|done]]].
Ltac mbuild :=
  lazymatch goal with
  | |- bind _ _ _ = Ok _ => apply bind_Ok; do 2 eexists; split; [mbuild|cbv beta; mbuild]
  | |- this _ _ = Ok _ => apply this_Ok; split; [mlook|reflexivity]
  | |- modify _ _ _ = Ok _ => apply (modify_Ok _ _ _ tt); eexists; split; [mlook|reflexivity]
  | |- emit _ _ _ = Ok _ => apply (emit_Ok _ _ _ tt); reflexivity
  | |- ret _ _ = Ok _ => apply ret_Ok; split; reflexivity
  | |- require _ _ _ = Ok _ => apply (require_Ok _ _ _ tt); split; [mcond|reflexivity]
  | _ => idtac
  end.

Ltac mgo H := mrun H; cbn [c_self c_sender c_value c_ro] in *; scunify; bools.


Ltac unreq := unfold done_, require_positive_value, require_owner_only, require_owner_or_manager_only, require_valid_address, is_valid_address,
    require_not_this, require_valid_connector, require_valid_connector_weight in *.
Ltac wsame := rewrite ?wput_wlog, ?wput_wput; first [reflexivity | unfold wlog, wput, after; cbn; rewrite ?insert_id by eassumption; reflexivity].

Section calls2.
Variable adv : adversary.
Variables (f : nat) (s t : addr) (w : world) (sc : score).
Hypothesis Ht : is_contract t = true.
Hypothesis Hsc : w_scores w !! t = Some sc.
Notation run := (exec adv (S f) false s t 0).

Ltac start K := rewrite (exec_honest_Ok adv f false s t _ w sc _ _ _ Ht Hsc K ltac:(done)); cbn [orb is_readonly honest_handler].
Ltac fwd H := let X := fresh in intros [X H]; clear X; unreq; mgo H.
Ltac bwd := intros ?; destruct_and?; subst; split; [by left|]; unreq; eapply Ok_world; [mbuild|wsame].

Lemma issue_iff to v r w' : s_kind sc = KFlex ->
  run (MIssue to v) w = Ok (r, w') <->
  (0 < v /\ s = s_owner sc /\ to <> zero_score /\ to <> t) /\ r = RNone /\
  w' = after t (set_supply (s_supply sc + v) (add_bal to v sc)) [EvIssuance v; EvTransfer t to v data_none] w.
Proof.
  intros K. start K. cbn. unfold flex_issue. split.
  - fwd H. split; [repeat split; try done; congruence|]. done.
  - bwd.
Qed.

Lemma destroy_iff from v r w' : s_kind sc = KFlex ->
  run (MDestroy from v) w = Ok (r, w') <->
  (0 < v <= balance sc from /\ (s = from \/ s = s_owner sc)) /\ r = RNone /\
  w' = after t (set_supply (s_supply sc - v) (add_bal from (- v) sc)) [EvDestruction v; EvTransfer from t v data_none] w.
Proof.
  intros K. start K. cbn. unfold flex_destroy. split.
  - fwd H. split; [|done]. split; [lia|]. destruct Hreq1; bools; tauto.
  - intros ([Hv Ho] & -> & ->). split; [by left|]. unreq.
    assert (Ho' : bool_decide (s = from) || bool_decide (s = s_owner sc) = true).
    { apply orb_true_iff. destruct Ho; [left|right]; by apply bool_decide_eq_true. }
    eapply Ok_world; [mbuild|wsame].
Qed.

Lemma disableTransfer_iff b r w' : s_kind sc = KFlex ->
  run (MDisableTransfer b) w = Ok (r, w') <->
  s = s_owner sc /\ r = RNone /\ w' = after t (set_transferable (negb b) sc) [] w.
Proof.
  intros K. start K. cbn. unfold flex_disableTransfer. split.
  - fwd H. done.
  - bwd.
Qed.

(* transfer to an ordinary account *)
Lemma transfer_user_iff to v d r w' : token_kind (s_kind sc) = true -> is_contract to = false ->
  run (MTransfer to v d) w = Ok (r, w') <->
  (0 <= v <= balance sc s /\ (s_kind sc = KFlex -> s_transferable sc = true)) /\ r = RNone /\
  w' = after t (add_bal to v (add_bal s (- v) sc)) [EvTransfer s to v (default data_none d)] w.
Proof.
  intros K Hto. assert (Hne : t <> to) by (intros ->; congruence).
  assert (Hn : bool_decide (t <> to) = true) by by apply bool_decide_eq_true.
  destruct (s_kind sc) eqn:K'; try discriminate K; start K'; cbn;
    unfold flex_transfer, icx_transferTo, irc_transfer, irc_transfer_; rewrite Hto; split.
  - fwd H. done.
  - intros ([Hv _] & -> & ->). split; [by left|]. unreq. eapply Ok_world; [mbuild|wsame]; cbn [c_sender]; bools_goal.
  - fwd H. done.
  - intros ([Hv _] & -> & ->). split; [by left|]. unreq. eapply Ok_world; [mbuild|wsame]; cbn [c_sender]; bools_goal.
  - fwd H. done.
  - intros ([Hv Hf] & -> & ->). specialize (Hf eq_refl). split; [by left|]. unreq. eapply Ok_world; [mbuild|wsame]; cbn [c_sender]; bools_goal.
Qed.

Lemma transferOwnership_iff a r w' : owned_kind (s_kind sc) = true ->
  run (MTransferOwnership a) w = Ok (r, w') <->
  (s = s_owner sc /\ a <> s_owner sc) /\ r = RNone /\ w' = after t (set_new_owner a sc) [] w.
Proof.
  intros K. destruct (s_kind sc) eqn:K'; try discriminate K; start K'; cbn; unfold transferOwnerShip; (split; [fwd H; done|bwd]).
Qed.
Lemma acceptOwnership_iff r w' : owned_kind (s_kind sc) = true ->
  run MAcceptOwnership w = Ok (r, w') <->
  s = s_new_owner sc /\ r = RNone /\
  w' = after t (set_new_owner zero_score (set_owner s sc)) [EvOwnerUpdate (s_owner sc) s] w.
Proof.
  intros K. destruct (s_kind sc) eqn:K'; try discriminate K; start K'; cbn; unfold acceptOwnerShip; (split; [fwd H; by subst|bwd]).
Qed.
Lemma transferManagement_iff a r w' : s_kind sc = KConv ->
  run (MTransferManagement a) w = Ok (r, w') <->
  ((s_manager sc = Some s \/ s_owner sc = s) /\ s_manager sc <> Some a) /\ r = RNone /\ w' = after t (set_new_manager (Some a) sc) [] w.
Proof.
  intros K. start K; cbn; unfold transferManagement; split; [fwd H|].
  - split; [|done]. split; [|done]. destruct Hreq; bools; naive_solver.
  - intros ([Ho Ha] & -> & ->). split; [by left|]. unreq.
    assert (Ho' : bool_decide (Some s = s_manager sc) || bool_decide (s = s_owner sc) = true).
    { apply orb_true_iff. destruct Ho; [left|right]; by apply bool_decide_eq_true. }
    eapply Ok_world; [mbuild|wsame].
Qed.
Lemma acceptManagement_iff r w' : s_kind sc = KConv ->
  run MAcceptManagement w = Ok (r, w') <->
  s_new_manager sc = Some s /\ r = RNone /\
  w' = after t (set_new_manager (Some zero_score) (set_manager (Some s) sc)) [EvManagerUpdate (s_manager sc) (Some s)] w.
Proof.
  intros K. start K; cbn; unfold acceptManagement; split; [fwd H|].
  - rewrite <- Hreq. done.
  - intros (Ho & -> & ->). split; [by left|]. unreq. eapply Ok_world; [mbuild|].  rewrite Ho. wsame.
Qed.

(* converter administration *)
Lemma updateConnector_iff a weight ve virtual r w' : s_kind sc = KConv ->
  run (MUpdateConnector a weight ve virtual) w = Ok (r, w') <->
  (s = s_owner sc /\ cn_set (conn sc a) = true /\ 0 < weight <= 1000000 /\ s_total_weight sc - cn_weight (conn sc a) + weight <= 1000000) /\
  r = RNone /\
  w' = after t (set_conn a (Connector virtual weight ve (cn_penabled (conn sc a)) true)
                  (set_total_weight (s_total_weight sc - cn_weight (conn sc a) + weight) sc)) [] w.
Proof.
  intros K. start K; cbn; unfold updateConnector; split; [fwd H|].
  - split; [repeat split; try done; lia|]. split; [done|].
    change (conn (set_total_weight ?x sc) a) with (conn sc a). rewrite Hreq0. done.
  - intros ((Ho & Hs & Hw & Hw') & -> & ->). split; [by left|]. unreq.
    eapply Ok_world; [mbuild|].
    rewrite ?wput_wlog, ?wput_wput. change (conn (set_total_weight ?x sc) a) with (conn sc a). rewrite Hs. done.
Qed.
Lemma disablePurchases_iff a b r w' : s_kind sc = KConv ->
  run (MDisableConnectorPurchases a b) w = Ok (r, w') <->
  (s = s_owner sc /\ cn_set (conn sc a) = true) /\ r = RNone /\
  w' = after t (set_conn a (Connector (cn_virtual (conn sc a)) (cn_weight (conn sc a)) (cn_venabled (conn sc a)) (negb b) true) sc) [] w.
Proof.
  intros K. start K; cbn; unfold disableConnectorPurchases; split; [fwd H|].
  - rewrite Hreq0. done.
  - intros ((Ho & Hs) & -> & ->). split; [by left|]. unreq. eapply Ok_world; [mbuild|]. rewrite Hs. wsame.
Qed.
Lemma restoreRegistry_iff r w' : s_kind sc = KConv ->
  run MRestoreRegistry w = Ok (r, w') <->
  (s_manager sc = Some s \/ s_owner sc = s) /\ r = RNone /\ w' = after t (set_allow_reg false (set_registry (s_prev_registry sc) sc)) [] w.
Proof.
  intros K. start K; cbn; unfold restoreRegistry; split; [fwd H|].
  - split; [|done]. destruct Hreq; bools; naive_solver.
  - intros (Ho & -> & ->). split; [by left|]. unreq. 
    assert (Ho' : bool_decide (Some s = s_manager sc) || bool_decide (s = s_owner sc) = true).
    { apply orb_true_iff. destruct Ho; [left|right]; by apply bool_decide_eq_true. }
    eapply Ok_world; [mbuild|wsame].
Qed.
Lemma disableRegistryUpdate_iff b r w' : s_kind sc = KConv ->
  run (MDisableRegistryUpdate b) w = Ok (r, w') <->
  (s_manager sc = Some s \/ s_owner sc = s) /\ r = RNone /\ w' = after t (set_allow_reg (negb b) sc) [] w.
Proof.
  intros K. start K; cbn; unfold disableRegistryUpdate; split; [fwd H|].
  - split; [|done]. destruct Hreq; bools; naive_solver.
  - intros (Ho & -> & ->). split; [by left|]. unreq. 
    assert (Ho' : bool_decide (Some s = s_manager sc) || bool_decide (s = s_owner sc) = true).
    { apply orb_true_iff. destruct Ho; [left|right]; by apply bool_decide_eq_true. }
    eapply Ok_world; [mbuild|wsame].
Qed.
Lemma disableConversions_iff b r w' : s_kind sc = KConv ->
  run (MDisableConversions b) w = Ok (r, w') <->
  (s_manager sc = Some s \/ s_owner sc = s) /\ r = RNone /\
  w' = after t (set_enabled (negb b) sc) (if Bool.eqb (s_enabled sc) b then [EvConversionsEnable (negb b)] else []) w.
Proof.
  intros K. start K; cbn; unfold disableConversions; split.
  - fwd H. destruct (Bool.eqb (s_enabled sc) b) eqn:Eb.
    + mgo E. split; [destruct Hreq; bools; naive_solver|]. done.
    + mgo E. split; [destruct Hreq; bools; naive_solver|]. split; [done|]. apply Bool.eqb_false_iff in Eb.
      unfold after. cbn. rewrite insert_id; [by destruct w|]. rewrite Hsc. f_equal. destruct sc; cbn in *. f_equal. by destruct s_enabled, b.
  - intros (Ho & -> & ->). split; [by left|]. unreq. 
    assert (Ho' : bool_decide (Some s = s_manager sc) || bool_decide (s = s_owner sc) = true).
    { apply orb_true_iff. destruct Ho; [left|right]; by apply bool_decide_eq_true. }
    destruct (Bool.eqb (s_enabled sc) b) eqn:Eb.
    { eapply Ok_world; [mbuild; rewrite Eb; mbuild|wsame]. }
    eapply Ok_world; [mbuild; rewrite Eb; mbuild|]. apply Bool.eqb_false_iff in Eb.
      unfold after. cbn. rewrite insert_id; [by destruct w|]. rewrite Hsc. f_equal. destruct sc; cbn in *. f_equal. by destruct s_enabled, b.
Qed.
Lemma setConversionFee_iff fee r w' : s_kind sc = KConv ->
  run (MSetConversionFee fee) w = Ok (r, w') <->
  ((s_manager sc = Some s \/ s_owner sc = s) /\ 0 <= fee <= s_max_fee sc) /\ r = RNone /\
  w' = after t (set_fee fee sc) [EvConversionFeeUpdate (s_fee sc) fee] w.
Proof.
  intros K. start K; cbn; unfold setConversionFee; split; [fwd H|].
  - split; [|done]. split; [|lia]. destruct Hreq; bools; naive_solver.
  - intros ((Ho & Hf) & -> & ->). split; [by left|]. unreq. 
    assert (Ho' : bool_decide (Some s = s_manager sc) || bool_decide (s = s_owner sc) = true).
    { apply orb_true_iff. destruct Ho; [left|right]; by apply bool_decide_eq_true. }
    eapply Ok_world; [mbuild|wsame].
Qed.

Lemma registerIcxToken_iff a b r w' : s_kind sc = KNet ->
  run (MRegisterIcxToken a b) w = Ok (r, w') <->
  (s = s_owner sc /\ a <> zero_score /\ a <> t) /\ r = RNone /\ w' = after t (set_icx_tokens (<[a := b]> (s_icx_tokens sc)) sc) [] w.
Proof.
  intros K. start K; cbn; unfold registerIcxToken; split; [fwd H|].
  - split; [|done]. repeat split; done.
  - bwd.
Qed.
Lemma registerAddress_iff n a r w' : s_kind sc = KReg ->
  run (MRegisterAddress n a) w = Ok (r, w') <->
  (s = s_owner sc /\ a <> zero_score /\ is_contract a = true /\ n ∈ score_keys) /\ r = RNone /\
  w' = after t (set_addrs (<[n := a]> (s_addrs sc)) sc) [EvAddressUpdate n a] w.
Proof.
  intros K. start K; cbn; unfold registerAddress; split; [fwd H|].
  - split; [|done]. repeat split; done.
  - bwd.
Qed.
Lemma unregisterAddress_iff n r w' : s_kind sc = KReg ->
  run (MUnregisterAddress n) w = Ok (r, w') <->
  (s = s_owner sc /\ s_addrs sc !! n <> None) /\ r = RNone /\
  w' = after t (set_addrs (delete n (s_addrs sc)) sc) [EvAddressUpdate n zero_score] w.
Proof.
  intros K. start K; cbn; unfold unregisterAddress; split; [fwd H|].
  - split; [|done]. repeat split; done.
  - bwd.
Qed.
End calls2.
