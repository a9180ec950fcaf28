(* Whole conversions that must succeed (C64). *)
From Coq Require Import String Ascii ZArith Lia.
From stdpp Require Import base countable list numbers strings gmap relations.
From Verif Require Import Res FormulaModel Codec CodecProofs World WorldBasics WorldSteps WorldExec WorldSpec WorldInv WorldMoney WorldAuth WorldNet WorldCalls WorldViews
  WorldConv WorldHop WorldPath WorldOwner WorldCoins WorldTrade WorldMore WorldLive ReadySpec.
Local Open Scope Z_scope.

Section ready.
Variable adv : adversary.
Variable N : addr.

(* [passable] with the quotes of the proofs *)
Fixpoint hops (w : world) (from : addr) (rest : list addr) (v z : Z) : Prop :=
  match rest with
  | f :: to :: rest' =>
      let C := owner_of w f in
      movable w from /\ network_of w C = N /\ conversions_enabled w C = true /\
      exists x fee, executed_quote w C from to v = Some (x, fee) /\ deliverable w C from to v x /\
        match rest' with [] => z <= x | _ => 1 <= x end /\ hops w to rest' x z
  | _ => True
  end.

Definition same_converter (w w' : world) (C : addr) : Prop :=
  (forall t, connector_of w' C t = connector_of w C t) /\ supply_of w' (token_of w C) = supply_of w (token_of w C) /\
  (forall X, balance_of w' X C = balance_of w X C).

Lemma deliverable_frame w w' C from to v x : ledger_only w w' -> same_converter w w' C ->
  deliverable w' C from to v x <-> deliverable w C from to v x.
Proof.
  intros L (E1 & E2 & E3). unfold deliverable, reserve. cbv zeta. rewrite (ledger_token _ _ _ L), E1, E2, E3.
  destruct (decide (to = _)); [done|]. by rewrite (ledger_movable _ _ _ L).
Qed.
Lemma hops_frame w w' z : ledger_only w w' -> forall rest, path_env w N rest ->
  (forall g, g ∈ odd_positions (zero_score :: rest) -> same_converter w w' (owner_of w g)) ->
  forall from v, hops w' from rest v z <-> hops w from rest v z.
Proof.
  intros L. refine (list_ind2 _ _ _ _); [done|done|].
  intros f to rest IH (Hh & Hto & Hok & HE) HS from v. cbn [hops]. rewrite !(ledger_owner _ _ _ L), (ledger_movable _ _ _ L), (ledger_enabled _ _ _ L).
  unfold network_of. rewrite (ledger_registry _ _ _ L), (ledger_registered _ _ _ _ L).
  assert (same_converter w w' (owner_of w f)) as S. { apply HS. cbn. by apply elem_of_list_here. }
  assert (forall x, hops w' to rest x z <-> hops w to rest x z) as IH'.
  { intros x. apply IH; [done|]. intros g Hg. apply HS. cbn [odd_positions]. apply elem_of_cons. right. by destruct rest. }
  pose proof S as (E1 & E2 & E3).
  assert (forall x, executed_quote w' (owner_of w f) from to x = executed_quote w (owner_of w f) from to x) as EQ by (intros x; by apply quote_frame).
  rewrite EQ. setoid_rewrite IH'. setoid_rewrite (deliverable_frame _ _ _ _ _ _ _ L S). done.
Qed.

Lemma hop_wants to j z : addr_ok to -> json_int j = Some z -> forall to' z', wants (hop_data to j) to' z' <-> to' = to /\ z' = z.
Proof. intros Hok Hj to' z'. rewrite wants_iff, hop_request, Hj by done. split; [intros [= -> ->]; done|intros [-> ->]; done]. Qed.

Lemma executed_nonzero w C from to v x fee : executed_quote w C from to v = Some (x, fee) -> from <> to.
Proof. unfold executed_quote. by case_decide. Qed.

(* the state after one hop *)
Lemma after_hop f ro T F to v j z w r w' : network_at w N -> token_at w T -> genuine_hop w N F -> token_at w to -> addr_ok to -> json_int j = Some z ->
  let C := owner_of w F in
  exec adv f ro N T 0 (MTransfer C v (Some (hop_data to j))) w = Ok (r, w') ->
  0 < v <= balance_of w T N /\ movable w T /\ network_of w C = N /\ conversions_enabled w C = true /\
  exists x fee, 0 < z <= x /\ executed_quote w C T to v = Some (x, fee) /\ deliverable w C T to v x /\ ledger_only w w' /\
    balance_of w' to N = balance_of w to N + x /\
    ((forall X a, 0 <= balance_of w X a) -> forall X a, 0 <= balance_of w' X a) /\
    forall C' g, C' <> C -> C' <> N -> token_of w C' = g -> g <> F -> same_converter w w' C'.
Proof.
  intros HN HT Hh Hto Hok Hj C H. pose proof Hh as (HC & HF & HR1 & HR2 & Ho).
  destruct (conversion adv f ro N T C v (hop_data to j) w r w') as (Hv & Hm & Hnet & Hen & to' & z' & x & fee & Hw & Hz & Hq & Hd & E); try done.
  { intros to' z' [-> ->]%(hop_wants to j z Hok Hj). done. }
  apply (hop_wants to j z Hok Hj) in Hw as [-> ->]. fold C in HF. rewrite HF in E.
  do 4 (split; [done|]). exists x, fee. do 3 (split; [done|]). pose proof (eff_ledger _ _ _ _ _ _ E) as L. split; [done|].
  assert (C <> N) as HCN. { intros E'. destruct HC as (_ & K & _). destruct HN as (_ & _ & K'). fold C in K. rewrite E' in K. congruence. }
  pose proof (executed_nonzero _ _ _ _ _ _ _ Hq) as Hne.
  split; [|split].
  - rewrite (eff_bal _ _ _ _ _ _ E), trade_balances_N, credit_eq, credit_ne1 by done. lia.
  - intros Hge X a. rewrite (eff_bal _ _ _ _ _ _ E). pose proof (Hge X a) as G. unfold deliverable in Hd. rewrite HF in Hd.
    unfold trade_balances, credit. destruct (decide (to = F)) as [EtF|NtF].
    + repeat case_decide; try subst X; try subst a; try lia; try done; try congruence.
    + destruct Hd as (Hd1 & _). repeat case_decide; try subst X; try subst a; try lia; try done; try congruence.
  - intros C' g H1 H2 H3 H4. split; [|split].
    + intros t. rewrite (eff_conn _ _ _ _ _ _ E), trade_virtual_other by done. apply add_virtual_0.
    + rewrite H3, (eff_sup _ _ _ _ _ _ E). unfold trade_supply. rewrite decide_False by done. lia.
    + intros X. rewrite (eff_bal _ _ _ _ _ _ E), trade_balances_other by done. lia.
Qed.

Lemma others w F to rest : path_env w N (F :: to :: rest) -> kind_at w N = Some KNet -> NoDup (odd_positions (zero_score :: F :: to :: rest)) ->
  forall g, g ∈ odd_positions (zero_score :: rest) -> genuine_hop w N g /\ g <> F /\ owner_of w g <> owner_of w F /\ owner_of w g <> N.
Proof.
  intros (Hh & _ & _ & HE) HN HD g Hg. cbn [odd_positions] in HD. apply NoDup_cons in HD as [HD _].
  assert (g <> F) as HgF. { intros ->. apply HD. by destruct rest. }
  pose proof (path_env_odd _ _ _ HE g Hg) as G. split; [done|]. split; [done|]. destruct G as ((_ & G1 & _) & G2 & _). destruct Hh as (_ & G3 & _).
  split; [|congruence]. intros E. rewrite E in G2. congruence.
Qed.

Lemma balance_now w T a : token_at w T -> answers adv w T (MBalanceOf a) (RInt (balance_of w T a)).
Proof. intros [H1 H2]. exact (proj2 (proj2 (proj2 (proj2 (token_answers adv w T H1 H2)))) a). Qed.
Lemma path_ok f c z : 0 < z -> c_self c = N -> c_ro c = false -> forall rest from amount min w, network_at w N -> token_at w from ->
  path_env w N rest -> NoDup (odd_positions (zero_score :: rest)) -> (forall X a, 0 <= balance_of w X a) -> json_int min = Some z ->
  0 < amount <= balance_of w from N -> hops w from rest amount z ->
  exists r w', convert_by_path (exec adv (S (S (S (S f))))) c from rest amount min w = Ok (r, w').
Proof.
  intros Hz HcN Hro. refine (list_ind2 _ _ _ _).
  - intros. by eexists _, _.
  - intros. by eexists _, _.
  - intros F to rest IH from amount min w HN HT HEE HD Hge Hj Ha HP.
    pose proof HEE as (Hh & Hto & Hok & HE). cbn [hops] in HP. cbv zeta in HP. destruct HP as (Hm & Hnet & Hen & x & fee & Hq & Hdel & Hx & HP).
    pose proof Hh as (HC & HF & HR1 & HR2 & Ho). pose proof HC as (HC1 & HC2 & HF1 & HF2). rewrite HF in HF1, HF2.
    set (C := owner_of w F) in *. set (j := match rest with [] => min | _ => JInt 1 end).
    assert (exists zj, json_int j = Some zj /\ 0 < zj <= x) as (zj & Hzj & Hzx).
    { unfold j. destruct rest; [exists z; split; [done|lia]|exists 1; split; [done|lia]]. }
    destruct (hop_ok adv f N from C amount (hop_data to j) w to zj x fee) as (w1 & H1); try done.
    { by apply (hop_wants to j zj Hok Hzj). }
    pose proof (after_hop _ _ _ _ _ _ _ _ _ _ _ HN HT Hh Hto Hok Hzj H1) as (_ & _ & _ & _ & x' & fee' & _ & Hq' & _ & L1 & Ebal & Hge1 & Hother).
    fold C in Hq', Hother. rewrite Hq in Hq'. injection Hq' as <- <-.
    assert (hops w1 to rest x z) as HP1.
    { apply (hops_frame w w1 z L1 rest HE); [|done]. intros g Hg.
      destruct (others _ _ _ _ HEE (proj2 (proj2 HN)) HD g Hg) as (G1 & G2 & G3 & G4). by apply (Hother _ g); [..|apply G1|]. }
    destruct (IH to x min w1) as (r & w' & H2); [|by eapply ledger_token_at|by eapply path_env_ledger| |by apply Hge1|done| |done|].
    { destruct HN as (A & B & D). split; [done|]. split; [done|]. by rewrite (ledger_kind _ _ _ L1). }
    { cbn [odd_positions] in HD. apply NoDup_cons in HD as [_ HD]. by destruct rest. }
    { pose proof (Hge to N). split; [|lia]. destruct rest; lia. }
    exists r, w'. cbn [convert_by_path]. unfold ecall. rewrite HcN, Hro.
    apply bind_Ok. exists (RAddr C), w. split; [exact (proj1 (owned_answers adv w F HF1 (flex_is_owned _ _ HF2)) _ _ _)|].
    apply bind_Ok. exists C, w. split; [done|].
    apply bind_Ok. exists (RInt (balance_of w to N)), w. split; [exact (balance_now _ _ _ Hto _ _ _)|].
    apply bind_Ok. exists (balance_of w to N), w. split; [done|]. fold j.
    apply bind_Ok. exists RNone, w1. split; [done|].
    apply bind_Ok. exists (RInt (balance_of w1 to N)), w1. split; [exact (balance_now _ _ _ (ledger_token_at _ _ _ L1 Hto) _ _ _)|].
    apply bind_Ok. exists (balance_of w1 to N), w1. split; [done|].
    replace (balance_of w1 to N - balance_of w to N) with x by lia. done.
Qed.

Lemma path_conds f c z : c_self c = N -> forall rest from amount min w r w', network_at w N -> token_at w from ->
  path_env w N rest -> NoDup (odd_positions (zero_score :: rest)) -> json_int min = Some z ->
  convert_by_path (exec adv f) c from rest amount min w = Ok (r, w') -> hops w from rest amount z.
Proof.
  intros HcN. refine (list_ind2 _ _ _ _); [done|done|].
  intros F to rest IH from amount min w r w' HN HT HEE HD Hj H.
  pose proof HEE as (Hh & Hto & Hok & HE). pose proof Hh as (HC & HF & HR1 & HR2 & Ho). pose proof HC as (HC1 & HC2 & HF1 & HF2). rewrite HF in HF1, HF2.
  cbn [convert_by_path] in H. unfold ecall in H. rewrite HcN in H.
  apply bind_Ok in H as (r0 & w0 & H0 & H). apply owner_answer in H0 as [-> ->]; [|done..].
  apply bind_Ok in H as (C0 & w0 & H0 & H). cbn in H0. apply ret_Ok in H0 as [-> ->].
  apply bind_Ok in H as (r0 & w0 & H0 & H). apply balance_answer in H0 as [-> ->]; [|done..].
  apply bind_Ok in H as (b0 & w0 & H0 & H). cbn in H0. apply ret_Ok in H0 as [-> ->].
  apply bind_Ok in H as (r0 & w1 & H1 & H).
  set (j := match rest with [] => min | _ => JInt 1 end) in H1.
  assert (exists zj, json_int j = Some zj) as (zj & Hzj) by (unfold j; destruct rest; [by exists z|by exists 1]).
  destruct (after_hop _ _ _ _ _ _ _ _ _ _ _ HN HT Hh Hto Hok Hzj H1) as (Ha & Hm & Hnet & Hen & x & fee & Hx & Hq & Hdel & L1 & Ebal & Hge1 & Hother).
  apply bind_Ok in H as (r1 & w0 & H0 & H). apply balance_answer in H0 as [-> ->]; [|by eapply ledger_token_at].
  apply bind_Ok in H as (b1 & w0 & H0 & H). cbn in H0. apply ret_Ok in H0 as [-> ->].
  replace (balance_of w1 to N - balance_of w to N) with x in H by lia.
  cbn [hops]. do 3 (split; [done|]). exists x, fee. split; [done|]. split; [done|]. split.
  { unfold j in Hzj. destruct rest; [rewrite Hj in Hzj; injection Hzj as <-; lia|injection Hzj as <-; lia]. }
  apply (hops_frame w w1 z L1 rest HE).
  { intros g Hg. destruct (others _ _ _ _ HEE (proj2 (proj2 HN)) HD g Hg) as (G1 & G2 & G3 & G4). by apply (Hother _ g); [..|apply G1|]. }
  eapply IH; [|by eapply ledger_token_at|by eapply path_env_ledger| |done|exact H].
  { destruct HN as (A & B & D). split; [done|]. split; [done|]. by rewrite (ledger_kind _ _ _ L1). }
  { cbn [odd_positions] in HD. apply NoDup_cons in HD as [_ HD]. by destruct rest. }
Qed.

(* the last step of a path *)
Lemma last_hop w z : forall rest from v x, path_env w N rest -> (1 < List.length rest)%nat -> hops w from rest v z -> path_executed w from rest v = Some x ->
  z <= x /\ (kind_at w (last_token from rest) = Some KIcx -> exists C, x <= balance_of w (last_token from rest) C) /\ (kind_at w (last_token from rest) = Some KFlex -> True).
Proof.
  refine (list_ind2 _ _ _ _); [cbn; lia|cbn; lia|].
  intros F to rest IH from v x (Hh & Hto & Hok & HE) _ (Hm & Hnet & Hen & y & fee & Hq & Hdel & Hy & HP) Hx.
  unfold path_executed in Hx. cbn [along] in Hx. rewrite Hq in Hx. cbn [last_token].
  destruct rest as [|g [|t rest]]; [|by destruct HE|].
  - cbn in Hx |- *. injection Hx as ->. split; [done|]. split; [|done]. intros K. exists (owner_of w F). unfold deliverable in Hdel.
    destruct Hh as ((_ & _ & _ & HF2) & _). rewrite decide_False in Hdel; [|congruence]. tauto.
  - eapply IH; [done|cbn; lia|exact HP|exact Hx].
Qed.

Definition coins_back (w : world) : Prop := forall T a, kind_at w T = Some KIcx -> balance_of w T a <= icx w T.

Lemma payout_ok f L x n w : is_contract N = true -> kind_at w N = Some KNet -> token_at w L -> payable w N L -> 0 < x <= balance_of w L N ->
  (kind_at w L = Some KIcx -> x <= icx w L) ->
  exists r w', (if icx_registered w N L then exec adv (S (S f)) false N L 0 (MWithdrawTo x (EOA n)) else exec adv (S (S f)) false N L 0 (MTransfer (EOA n) x (Some data_none))) w = Ok (r, w').
Proof.
  intros HN1 HN [HL1 HL2] HP Hx Hi. destruct (token_sc _ _ HL2) as (sc & Hsc & Hk). unfold payable in HP. rewrite (balance_of_sc _ _ _ _ Hsc) in Hx.
  destruct (icx_registered w N L).
  - apply kind_at_Some in HP as HP'. destruct HP' as (sc' & Hsc' & K). assert (sc' = sc) as -> by congruence.
    eexists _, _. apply (withdrawTo_iff adv f N L w sc HL1 Hsc K x n). split; [split; [lia|by apply Hi]|]. split; reflexivity.
  - eexists _, _. apply (transfer_user_iff adv (S f) N L w sc HL1 Hsc (EOA n) x (Some data_none) _ _ Hk eq_refl).
    split; [split; [lia|]|split; reflexivity]. by apply (movable_sc w L sc Hsc).
Qed.

(* the whole conversion inside the network *)
Lemma internal_iff f c from rest amount min z n w : 0 < z -> c_self c = N -> c_ro c = false -> network_at w N -> token_at w from ->
  path_env w N rest -> (1 < List.length rest)%nat -> NoDup (odd_positions (zero_score :: rest)) -> (forall X a, 0 <= balance_of w X a) -> coins_back w -> json_int min = Some z ->
  0 < amount <= balance_of w from N ->
  (exists x w', convert_for_internal (exec adv (S (S (S (S f))))) c (from :: rest) amount min (EOA n) w = Ok (x, w')) <->
  hops w from rest amount z /\ payable w N (last_token from rest).
Proof.
  intros Hz HcN Hro HN HT HE Hlen HD Hge Hcb Hj Ha. pose proof HN as (HN1 & HN2 & HN3). unfold convert_for_internal.
  assert (forall to x w1, convert_by_path (exec adv (S (S (S (S f))))) c from rest amount min w = Ok ((to, x), w1) ->
    hops w from rest amount z ->
    to = last_token from rest /\ token_at w to /\ ledger_only w w1 /\ 0 < x <= balance_of w1 to N /\ (kind_at w to = Some KIcx -> x <= icx w to)) as HX.
  { intros to x w1 H1 HP.
    destruct (path_run adv N HN1 _ c HcN rest from amount min w to x w1 HN3 HT HE HD H1) as (Q & Et & Ht & (L1 & B1 & _) & Hm).
    destruct (Hm Hlen (path_env_even _ _ _ HE)) as [_ (z' & Hz' & Hzx)].
    destruct (last_hop w z rest from amount x HE Hlen HP Q) as (_ & Hicx & _). rewrite <- Et in Hicx.
    do 3 (split; [done|]). split.
    - split; [lia|]. rewrite B1. rewrite credit_eq. pose proof (Hge to N). unfold credit. destruct (decide (to = from)) as [E|]; [rewrite <- E in Ha; rewrite decide_True by done; lia|lia].
    - intros K. destruct (Hicx K) as (C & HC). specialize (Hcb to C K). lia. }
  split.
  - intros (r & w' & H). apply bind_Ok in H as ([to x] & w1 & H1 & H).
    pose proof (path_conds _ c z HcN rest from amount min w _ _ HN HT HE HD Hj H1) as HP. split; [done|].
    destruct (HX _ _ _ H1 HP) as (-> & Ht & L1 & _). set (L := last_token from rest) in *.
    apply bind_Ok in H as (sc & w2 & H2 & H). apply this_Ok in H2 as [Hsc ->]. rewrite HcN in Hsc.
    apply bind_Ok in H as (u & w2 & H2 & _).
    assert (default false (s_icx_tokens sc !! L) = icx_registered w1 N L) as Er by (unfold icx_registered, var; by rewrite Hsc).
    rewrite Er in H2. unfold ecall in H2. rewrite HcN, Hro in H2.
    pose proof (ledger_token_at _ _ _ L1 Ht) as Ht1. assert (kind_at w1 N = Some KNet) as HN' by (by rewrite (ledger_kind _ _ _ L1)).
    pose proof H2 as H2'. apply payout_inv in H2' as (_ & P2 & _); [|done..].
    unfold payable. rewrite (ledger_icxreg _ _ _ _ L1), (ledger_kind _ _ _ L1) in P2. rewrite (ledger_icxreg _ _ _ _ L1) in H2.
    destruct (icx_registered w N L) eqn:Eb; [by apply P2|].
    rewrite <- (ledger_movable _ _ _ L1). destruct Ht1 as [HL1 HL2]. destruct (token_sc _ _ HL2) as (sc1 & Hsc1 & Hk).
    destruct (proj1 (transfer_user_iff adv _ N L w1 sc1 HL1 Hsc1 (EOA n) x (Some data_none) _ _ Hk eq_refl) H2) as ((A & B) & _).
    by apply (movable_sc w1 L sc1 Hsc1).
  - intros [HP Hpay].
    destruct (path_ok f c z Hz HcN Hro rest from amount min w HN HT HE HD Hge Hj Ha HP) as ([to x] & w1 & H1).
    destruct (HX _ _ _ H1 HP) as (-> & Ht & L1 & Hx & Hicx). set (L := last_token from rest) in *.
    assert (kind_at w1 N = Some KNet) as HN' by (by rewrite (ledger_kind _ _ _ L1)). apply kind_at_Some in HN' as HN''. destruct HN'' as (sc & Hsc & _).
    assert (default false (s_icx_tokens sc !! L) = icx_registered w1 N L) as Er by (unfold icx_registered, var; by rewrite Hsc).
    destruct (payout_ok (S (S f)) L x n w1) as (r & w2 & H2); try done.
    { by eapply ledger_token_at. }
    { unfold payable in *. rewrite (ledger_icxreg _ _ _ _ L1), (ledger_kind _ _ _ L1). destruct (icx_registered w N L); [done|by apply (ledger_movable _ _ _ L1)]. }
    { rewrite (ledger_kind _ _ _ L1). destruct L1 as [Li _]. unfold icx in *. rewrite Li. done. }
    exists x, w2. apply bind_Ok. exists (L, x), w1. split; [done|].
    apply bind_Ok. exists sc, w1. split; [apply this_Ok; by rewrite HcN|].
    apply bind_Ok. exists r, w2. split; [|done]. rewrite Er. unfold ecall. by rewrite HcN, Hro.
Qed.
End ready.

Lemma hops_scores N w w' z : w_scores w' = w_scores w -> forall rest from v, hops N w' from rest v z <-> hops N w from rest v z.
Proof.
  intros E. destruct w as [i s l], w' as [i' s' l']. cbn in E. subst s'.
  refine (list_ind2 _ _ _ _); [done|done|]. intros f to rest IH from v. cbn [hops]. setoid_rewrite (fun x => IH to x). done.
Qed.

Section users.
Variable adv : adversary.

Lemma fee_range w C : reachable adv w -> kind_at w C = Some KConv -> 0 <= fee_of w C <= 1000000.
Proof.
  intros Hr HK. apply kind_at_Some in HK as (sc & Hsc & K). pose proof (conn_reachable _ _ _ _ Hr Hsc) as H. rewrite (fee_of_sc _ _ _ Hsc).
  destruct H as [_ _ _ _ H1 H2]. lia.
Qed.
Lemma hops_passable w N z : reachable adv w -> 0 <= z -> forall rest from v, path_env w N rest -> 0 <= v ->
  hops N w from rest v z <-> passable w N from rest v z.
Proof.
  intros Hr Hz. refine (list_ind2 _ _ _ _); [done|done|].
  intros f to rest IH from v (Hh & Hto & Hok & HE) Hv. cbn [hops passable]. cbv zeta. destruct Hh as ((_ & HK & _) & _).
  pose proof (fee_range _ _ Hr HK) as Hfee. split.
  - intros (A & B & D & x & fee & Q & Hdel & Hx & HP). destruct (proj1 (executed_iff w _ from to v x Hv Hfee) (ex_intro _ fee Q)) as [Q1 Q2].
    do 4 (split; [done|]). exists x. do 3 (split; [done|]). apply IH; [done| |done]. destruct rest; lia.
  - intros (A & B & D & Q1 & x & Q2 & Hdel & Hx & HP). destruct (proj2 (executed_iff w _ from to v x Hv Hfee) (conj Q1 Q2)) as [fee Q].
    do 3 (split; [done|]). exists x, fee. do 3 (split; [done|]). apply IH; [done| |done]. destruct rest; lia.
Qed.
Lemma coins_backed w : reachable adv w -> coins_back w.
Proof.
  intros Hr T a K. rewrite (icx_backed adv w T Hr K). pose proof (balances_bounded adv w T [a] Hr (NoDup_singleton _)) as H.
  unfold sum_Z in H. cbn in H. lia.
Qed.

Theorem token_ready f u n T N p z v d w : reachable adv w -> kind_at w N = Some KNet -> is_token w T -> genuine_path w p ->
  asks d (EOA u) p z (EOA n) ->
  succeeds (exec adv (S (S (S (S (S (S f)))))) false (EOA u) T 0 (MTransfer N v (Some d))) w <->
  exists rest L, p = T :: rest /\ last p = Some L /\ valid_path p = true /\ 0 < z /\ 0 < v <= balance_of w T (EOA u) /\
    passable w N T rest v z /\ payable w N L.
Proof.
  intros Hr HN HT HG Hask. destruct (kind_contract adv _ _ _ Hr HN) as [HN1 HN0].
  pose proof (kind_token_at adv _ _ Hr HT) as HTa. pose proof HTa as [HT1 _]. destruct (token_sc _ _ HT) as (sc & Hsc & Hk).
  pose proof Hask as Hask'. apply asks_iff in Hask' as (j & Hreq & Hj).
  assert (Forall addr_ok p) as Hok.
  { destruct Hask as (m & text & j' & -> & _ & Hp & _). by apply convert_path_ok in Hp. }
  (* the facts needed in both directions *)
  assert (forall rest, p = T :: rest -> valid_path p = true -> 0 < z -> 0 < v <= balance_of w T (EOA u) ->
    path_env w N rest /\ last p = Some (last_token T rest) /\
    let w1 := wupd T (add_bal N v (add_bal (EOA u) (- v) sc)) [] w in
    ((exists y w2, convert_for_internal (exec adv (S (S (S (S f))))) (Ctx N T 0 false) (T :: rest) v j (EOA n) w1 = Ok (y, w2)) <->
     passable w N T rest v z /\ payable w N (last_token T rest))) as HX.
  { intros rest -> Hvp Hz Hv. apply Forall_cons in Hok as [_ Hok]. destruct (genuine_env adv w N Hr HN rest T Hok HG) as [_ HE].
    apply valid_path_iff in Hvp as Hvp'. destruct Hvp' as (Hlen & Hodd & HD).
    split; [done|]. split; [apply last_token_last, (path_env_even _ _ _ HE)|]. intros w1.
    pose proof (eff_move w T sc (EOA u) N v Hsc) as E1. fold w1 in E1. pose proof (eff_ledger _ _ _ _ _ _ E1) as L1.
    rewrite (internal_iff adv N f (Ctx N T 0 false) T rest v j z n w1); try done.
    - rewrite <- (hops_passable w N z Hr ltac:(lia) rest T v HE ltac:(lia)).
      rewrite (hops_frame N w w1 z L1 rest HE).
      + unfold payable. rewrite (ledger_icxreg _ _ _ _ L1), (ledger_kind _ _ _ L1).
        destruct (icx_registered w N _); [done|]. by rewrite (ledger_movable _ _ _ L1).
      + intros g Hg. destruct (path_env_odd _ _ _ HE g Hg) as ((G1 & G2 & _) & G3 & _).
        assert (owner_of w g <> EOA u) as D1 by (intros E; by rewrite E in G1).
        assert (owner_of w g <> N) as D2 by (intros E; rewrite E in G2; congruence).
        split; [|split].
        * intros t. rewrite (eff_conn _ _ _ _ _ _ E1). apply add_virtual_0.
        * rewrite (eff_sup _ _ _ _ _ _ E1). unfold zero1. lia.
        * intros X. rewrite (eff_bal _ _ _ _ _ _ E1), !credit_ne by done. lia.
    - split; [done|]. split; [done|]. by rewrite (ledger_kind _ _ _ L1).
    - by eapply ledger_token_at.
    - by eapply path_env_ledger.
    - cbn in Hlen. lia.
    - intros X a. rewrite (eff_bal _ _ _ _ _ _ E1). destruct (balances_sum adv w X Hr) as [Hp _]. specialize (Hp a). unfold credit.
      repeat case_decide; subst; lia.
    - intros X a K. rewrite (ledger_kind _ _ _ L1) in K. assert (icx w1 X = icx w X) as -> by (destruct L1 as [Li _]; unfold icx; by rewrite Li).
      rewrite (icx_backed adv w X Hr K).
      assert (EOA u <> N) as HuN by (by intros <-). rewrite (eff_bal _ _ _ _ _ _ E1). unfold credit. 
      destruct (decide (X = T)) as [->|]; [|pose proof (coins_backed w Hr X a K) as G; rewrite (icx_backed adv w X Hr K) in G; lia].
      destruct (decide (a = N)) as [->|].
      + rewrite decide_False by done. pose proof (balances_bounded adv w T [N; EOA u] Hr) as G. unfold sum_Z in G. cbn in G.
        assert (NoDup [N; EOA u]) as ND. { apply NoDup_cons. split; [|apply NoDup_singleton]. intros E%elem_of_list_singleton. done. }
        specialize (G ND). lia.
      + pose proof (coins_backed w Hr T a K) as G; rewrite (icx_backed adv w T Hr K) in G. case_decide; lia.
    - rewrite (eff_bal _ _ _ _ _ _ E1), credit_eq. rewrite credit_ne by (by intros ->). destruct (balances_sum adv w T Hr) as [Hp _]. specialize (Hp N). lia. }
  split.
  - intros (r & w' & H). pose proof H as H'. eapply token_trade in H' as (L & x & Hhd & Hlast & Hvp & _ & Hz & Hv & _); try done.
    destruct p as [|T' rest]; [done|]. injection Hhd as ->. destruct (HX rest eq_refl Hvp ltac:(lia) Hv) as (HE & Hl & HI).
    exists rest, L. do 3 (split; [done|]). split; [lia|]. split; [done|]. rewrite Hl in Hlast. injection Hlast as <-.
    apply HI. apply exec_transfer_inv in H as (_ & _ & _ & _ & _ & _ & _ & f' & sc' & r2 & w2 & Ef & Hsc' & H & _); [|done].
    assert (sc' = sc) as -> by congruence. injection Ef as <-. rewrite HN1 in H. cbn [default] in H. change (id d) with d in H.
    set (w1 := wupd T _ [] w) in H |- *. assert (kind_at w1 N = Some KNet) as HN'.
    { rewrite (ledger_kind w w1 N (move_ledger w T sc (EOA u) N v Hsc)). done. }
    apply kind_at_Some in HN' as (scN & HscN & KN).
    destruct (proj1 (exec_honest_Ok adv _ false T N _ w1 scN KNet r2 w2 HN1 HscN KN ltac:(done)) H) as [_ H'']. clear H.
    apply net_fallback_inv in H''. destruct H'' as [[-> _]|(rest' & rq & z' & y & Hd & Hrq & Hp & _ & _ & _ & _ & H)]; [done|].
    rewrite Hreq in Hrq. injection Hrq as <-. cbn [rq_path rq_min rq_for c_sender] in *. injection Hp as <-. by exists y, w2.
  - intros (rest & L & -> & Hlast & Hvp & Hz & Hv & HP & Hpay). destruct (HX rest eq_refl Hvp Hz Hv) as (HE & Hl & HI).
    rewrite Hl in Hlast. injection Hlast as <-. destruct (proj2 HI (conj HP Hpay)) as (y & w2 & H2).
    assert (movable w T) as Hmov.
    { apply valid_path_iff in Hvp as (Hlen & _). destruct rest as [|g [|t rest]]; [cbn in Hlen; lia|cbn in Hlen; lia|]. by destruct HP. }
    exists RNone. eexists. apply (transfer_ok adv _ (EOA u) T N v (Some d) w sc RNone w2); try done; [lia| |].
    { intros K <-. congruence. }
    rewrite HN1. cbn [default]. change (id d) with d.
    set (w1 := wupd T _ [] w) in H2 |- *. assert (kind_at w1 N = Some KNet) as HN'.
    { rewrite (ledger_kind w w1 N (move_ledger w T sc (EOA u) N v Hsc)). done. }
    apply kind_at_Some in HN' as (scN & HscN & KN).
    apply (exec_honest_Ok adv _ false T N _ w1 scN KNet RNone w2 HN1 HscN KN ltac:(done)). split; [by left|].
    cbn -[net_tokenFallback exec]. unfold done_, net_tokenFallback. rewrite bool_decide_eq_false_2 by (intros ->; done). rewrite Hreq. cbn [rq_path rq_min rq_for c_sender]. rewrite Hj.
    apply bind_Ok. exists tt, w2. split; [|done].
    apply bind_Ok. exists tt, w1. split; [by rewrite bool_decide_eq_true_2|].
    apply bind_Ok. exists tt, w1. split; [unfold require_positive_value; apply (require_Ok _ _ _ tt); split; [by apply Z.ltb_lt|done]|].
    apply bind_Ok. exists tt, w1. split; [done|].
    apply bind_Ok. exists tt, w1. split; [unfold require_valid_path; by rewrite Hvp|].
    apply bind_Ok. exists y, w2. split; [exact H2|done].
Qed.

Lemma exec_convert f u n N v m text z w scN y w2 : is_contract N = true -> EOA u <> N -> 0 < v <= icx w (EOA u) -> w_scores w !! N = Some scN -> s_kind scN = KNet ->
  m = MConvertFor text z (EOA n) \/ m = MConvert text z /\ n = u ->
  convertFor (exec adv f) (Ctx N (EOA u) v false) text z (EOA n) (paid (EOA u) N v w) = Ok (y, w2) ->
  exec adv (S f) false (EOA u) N v m w = Ok (RInt y, w2).
Proof.
  intros HN1 HuN Hv HscN KN Hm HC. cbn [exec]. apply bind_Ok. exists tt, w. split; [done|].
  apply bind_Ok. exists tt, (paid (EOA u) N v w). split; [apply move_paid; [done|lia|lia]|].
  destruct N as [nn|nn]; [done|].
  apply bind_Ok. exists scN, (paid (EOA u) (SCORE nn) v w). split; [unfold get_score; change (w_scores (paid (EOA u) (SCORE nn) v w)) with (w_scores w); by rewrite HscN|].
  rewrite KN. apply bind_Ok. exists tt, (paid (EOA u) (SCORE nn) v w). split; [by destruct Hm as [->|[-> ->]]|].
  apply bind_Ok. exists tt, (paid (EOA u) (SCORE nn) v w). split; [by destruct Hm as [->|[-> ->]]|].
  destruct Hm as [->|[-> ->]]; cbn -[convertFor exec bind]; (apply bind_Ok; exists y, w2; split; [exact HC|done]).
Qed.

Theorem coin_ready f u n N text z v m w p : reachable adv w -> kind_at w N = Some KNet ->
  convert_path text = Some p -> genuine_path w p ->
  m = MConvertFor text z (EOA n) \/ m = MConvert text z /\ n = u ->
  succeeds (exec adv (S (S (S (S (S f))))) false (EOA u) N v m) w <->
  exists T rest L, p = T :: rest /\ last p = Some L /\ valid_path p = true /\ icx_registered w N T = true /\ kind_at w T = Some KIcx /\
    0 < z /\ 0 < v <= icx w (EOA u) /\ passable w N T rest v z /\ payable w N L.
Proof.
  intros Hr HN Htext HG Hm. destruct (kind_contract adv _ _ _ Hr HN) as [HN1 HN0].
  apply kind_at_Some in HN as HN'. destruct HN' as (scN & HscN & KN).
  assert (convert_target m (EOA u) = Some (text, z, EOA n)) as Ht by (destruct Hm as [->|[-> ->]]; done).
  pose proof (convert_path_ok _ _ Htext) as Hok. set (c := Ctx N (EOA u) v false).
  assert (EOA u <> N) as HuN by (by intros <-).
  (* the facts needed in both directions *)
  assert (forall T rest, p = T :: rest -> valid_path p = true -> 0 < z -> 0 < v <= icx w (EOA u) -> icx_registered w N T = true -> kind_at w T = Some KIcx ->
    path_env w N rest /\ last p = Some (last_token T rest) /\ exists sc w1, w_scores w !! T = Some sc /\ s_kind sc = KIcx /\
    (forall r w', exec adv (S (S (S (S f)))) false N T v MFallback (paid (EOA u) N v w) = Ok (r, w') <-> r = RNone /\ w' = w1) /\
    ((exists y w2, convert_for_internal (exec adv (S (S (S (S f))))) c (T :: rest) v (JInt z) (EOA n) w1 = Ok (y, w2)) <->
     passable w N T rest v z /\ payable w N (last_token T rest))) as HX.
  { intros T rest -> Hvp Hz Hv Hreg HK. apply Forall_cons in Hok as [_ Hok]. destruct (genuine_env adv w N Hr HN rest T Hok HG) as [HTa HE].
    pose proof HTa as [HT1 _].
    apply valid_path_iff in Hvp as Hvp'. destruct Hvp' as (Hlen & Hodd & HD).
    split; [done|]. split; [apply last_token_last, (path_env_even _ _ _ HE)|].
    apply kind_at_Some in HK as HK'. destruct HK' as (sc & Hsc & K).
    set (w0 := paid N T v (paid (EOA u) N v w)).
    assert (w_scores w0 = w_scores w) as S0 by done. assert (w_scores w0 !! T = Some sc) as Hsc0 by done.
    pose proof (eff_mint w0 T sc N v [EvTransfer T N v data_none; EvIssuance v] Hsc0) as E1.
    set (w1 := wupd T _ _ w0) in E1. pose proof (eff_ledger _ _ _ _ _ _ E1) as L1.
    assert (N <> T) as HNT by congruence.
    exists sc, w1. do 2 (split; [done|]). split.
    { intros r w'. assert (v <= icx (paid (EOA u) N v w) N) as Hge.
      { rewrite paid_icx by done. rewrite decide_False, decide_True by done. pose proof (icx_ge0_reachable adv w Hr N). lia. }
      rewrite (deposit_iff adv _ N T (paid (EOA u) N v w) sc HT1 Hsc K v MFallback r w'); [|by right|done|lia].
      rewrite after_wupd. cbn [rev app]. unfold w1, w0. tauto. }
    rewrite (internal_iff adv N f c T rest v (JInt z) z n w1); try done.
    - rewrite <- (hops_passable w N z Hr ltac:(lia) rest T v HE ltac:(lia)).
      rewrite <- (hops_scores N w w0 z S0).
      assert (path_env w0 N rest) as HE0 by (by eapply path_env_scores).
      rewrite (hops_frame N w0 w1 z L1 rest HE0).
      + assert (payable w1 N (last_token T rest) <-> payable w N (last_token T rest)) as HPP.
        { unfold payable. pose proof (ledger_icxreg _ _ N (last_token T rest) L1) as Q1. change (icx_registered w0) with (icx_registered w) in Q1. rewrite Q1.
          pose proof (ledger_kind _ _ (last_token T rest) L1) as Q2. change (kind_at w0) with (kind_at w) in Q2. rewrite Q2.
          pose proof (ledger_movable _ _ (last_token T rest) L1) as Q3. change (movable w0) with (movable w) in Q3.
          destruct (icx_registered w N (last_token T rest)); [apply iff_refl|exact Q3]. }
        tauto.
      + intros g Hg. destruct (path_env_odd _ _ _ HE0 g Hg) as ((G1 & G2 & G4 & G5) & G3 & _).
        assert (owner_of w0 g <> N) as D2 by (intros E; rewrite E in G2; change (kind_at w0) with (kind_at w) in G2; congruence).
        split; [|split].
        * intros t. rewrite (eff_conn _ _ _ _ _ _ E1). apply add_virtual_0.
        * rewrite (eff_sup _ _ _ _ _ _ E1). rewrite decide_False; [lia|]. intros E. rewrite E in G5. change (kind_at w0) with (kind_at w) in G5. congruence.
        * intros X. rewrite (eff_bal _ _ _ _ _ _ E1), credit_ne by done. lia.
    - split; [done|]. split; [done|]. by rewrite (ledger_kind _ _ _ L1).
    - by eapply ledger_token_at.
    - eapply path_env_ledger; [done|]. by eapply path_env_scores.
    - cbn in Hlen. lia.
    - intros X a. rewrite (eff_bal _ _ _ _ _ _ E1). destruct (balances_sum adv w X Hr) as [Hp _]. specialize (Hp a).
      change (balance_of w0) with (balance_of w). unfold credit. repeat case_decide; subst; lia.
    - intros X a K'. rewrite (ledger_kind _ _ _ L1) in K'. change (kind_at w0) with (kind_at w) in K'.
      pose proof (coins_backed w Hr X a K') as G.
      assert (EOA u <> X) as HuX by (intros <-; pose proof (no_eoa_reachable _ _ Hr u) as Hn'; unfold kind_at in K'; by rewrite Hn' in K').
      assert (icx w1 X = icx w0 X) as -> by (destruct L1 as [Li _]; unfold icx; by rewrite Li).
      assert (N <> X) as HNX by congruence.
      rewrite (eff_bal _ _ _ _ _ _ E1). change (balance_of w0) with (balance_of w). unfold w0. rewrite !paid_icx by done.
      rewrite !(decide_False (P := X = N)), (decide_False (P := X = EOA u)) by done. unfold credit. repeat case_decide; lia.
    - rewrite (eff_bal _ _ _ _ _ _ E1), credit_eq. change (balance_of w0) with (balance_of w). destruct (balances_sum adv w T Hr) as [Hp _]. specialize (Hp N). lia. }
  split.
  - intros (r & w' & H). pose proof H as H'. eapply coin_trade in H' as (T & L & x & _ & Hhd & Hlast & Hvp & Hreg & HK & _ & Hz & Hv & _); try done.
    destruct p as [|T' rest]; [done|]. injection Hhd as ->. destruct (HX T rest eq_refl Hvp ltac:(lia) Hv Hreg HK) as (HE & Hl & sc & w1 & Hsc & K & HD & HI).
    exists T, rest, L. do 5 (split; [done|]). split; [lia|]. split; [done|]. rewrite Hl in Hlast. injection Hlast as <-. apply HI.
    apply exec_inv in H as (w0 & H0 & _ & H); [|apply exec_keeps]. rewrite move_paid in H0 by (done || lia). apply Ok_inj in H0. injection H0 as <-.
    destruct H as [(? & -> & _)|(sc0 & _ & Hsc0 & _ & _ & H & _)]; [done|].
    change (w_scores (paid (EOA u) N v w)) with (w_scores w) in Hsc0. rewrite HscN in Hsc0. injection Hsc0 as <-. rewrite KN in H. specialize (H ltac:(done)).
    eapply convert_inv in H; [|exact Ht|exact HscN].
    destruct H as (T2 & rest2 & r1 & w2 & y & Hp & _ & _ & _ & _ & _ & H1 & H & ->). cbn [c_self c_ro c_value frame] in H1, H.
    rewrite Htext in Hp. injection Hp as <- <-.
    assert (is_readonly m = false) as Erm by (by destruct Hm as [->|[-> _]]). rewrite Erm in H1. cbn [orb] in H1. unfold frame in H. rewrite ?Erm in H. cbn [orb] in H.
    apply HD in H1 as [-> ->]. by exists y, w'.
  - intros (T & rest & L & -> & Hlast & Hvp & Hreg & HK & Hz & Hv & HP & Hpay).
    destruct (HX T rest eq_refl Hvp Hz Hv Hreg HK) as (HE & Hl & sc & w1 & Hsc & K & HD & HI).
    rewrite Hl in Hlast. injection Hlast as <-. destruct (proj2 HI (conj HP Hpay)) as (y & w2 & H2).
    pose proof (proj2 (HD RNone w1) (conj eq_refl eq_refl)) as H1.
    assert (convertFor (exec adv (S (S (S (S f))))) c text z (EOA n) (paid (EOA u) N v w) = Ok (y, w2)) as HC.
    { unfold convertFor. rewrite Htext. unfold require_valid_path, require_positive_value, require_valid_address, require_not_this.
      apply bind_Ok. exists tt, (paid (EOA u) N v w). split; [by rewrite Hvp|].
      apply bind_Ok. exists tt, (paid (EOA u) N v w). split; [apply (require_Ok _ _ _ tt); split; [by apply Z.ltb_lt|done]|].
      apply bind_Ok. exists tt, (paid (EOA u) N v w). split; [done|].
      apply bind_Ok. exists tt, (paid (EOA u) N v w). split; [apply (require_Ok _ _ _ tt); split; [|done]; cbn; by destruct N|].
      apply bind_Ok. exists scN, (paid (EOA u) N v w). split; [by apply this_Ok|].
      apply bind_Ok. exists tt, (paid (EOA u) N v w). split.
      { apply (require_Ok _ _ _ tt). split; [|done]. unfold icx_registered in Hreg. by rewrite (var_sc _ _ _ _ _ HscN) in Hreg. }
      apply bind_Ok. exists RNone, w1. split; [exact H1|exact H2]. }
    exists (RInt y), w2. exact (exec_convert _ u n N v m text z w scN y w2 HN1 HuN Hv HscN KN Hm HC).
Qed.
End users.
