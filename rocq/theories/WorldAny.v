(* Conversions for any beneficiary (C47, C49): everything up to the payout, and the payout as a call. *)
From Coq Require Import String Ascii ZArith Lia.
From stdpp Require Import base countable list numbers strings gmap relations.
From Verif Require Import Res FormulaModel Codec CodecProofs World WorldBasics WorldSteps WorldExec WorldSpec WorldInv WorldMoney WorldAuth WorldNet WorldCalls WorldViews
  WorldConv WorldHop WorldPath WorldOwner WorldCoins WorldTrade WorldMore WorldLive.
Local Open Scope Z_scope.

(* the network's call that pays x of L to a *)
Definition pays_out (adv : adversary) (w0 : world) (N L : addr) (x : Z) (a : addr) (w w' : world) : Prop :=
  exists fuel r, exec adv fuel false N L 0 (if icx_registered w0 N L then MWithdrawTo x a else MTransfer a x (Some data_none)) w = Ok (r, w').

Section any.
Variable adv : adversary.
Lemma internal_any N f c from rest amount min a w z w' : is_contract N = true -> kind_at w N = Some KNet -> c_self c = N -> c_ro c = false -> token_at w from ->
  path_env w N rest -> (1 < List.length rest)%nat -> NoDup (odd_positions (from :: rest)) ->
  convert_for_internal (exec adv f) c (from :: rest) amount min a w = Ok (z, w') ->
  let L := last_token from rest in
  path_executed w from rest amount = Some z /\ 0 < amount /\ (exists m, json_int min = Some m /\ 0 < m <= z) /\ token_at w L /\
  exists w1, ledger_only w w1 /\
    (forall X b, b ∉ converters w (from :: rest) -> balance_of w1 X b = balance_of w X b + credit from N (- amount) X b + credit L N z X b) /\
    pays_out adv w N L z a w1 w'.
Proof.
  intros HN1 HN HcN Hro HT HE Hlen HD H L. unfold convert_for_internal in H.
  apply bind_Ok in H as ([to x] & w1 & H1 & H).
  destruct (path_run adv N HN1 f c HcN rest from amount min w to x w1 HN HT HE HD H1) as (Q & -> & Ht & (L1 & B1 & B2 & B3 & B4) & Hm). fold L in Ht, B1, H.
  destruct (Hm Hlen (path_env_even _ _ _ HE)) as [Ham Hm']. clear Hm. rename Hm' into Hm.
  apply bind_Ok in H as (sc & w2 & H2 & H). apply this_Ok in H2 as [Hsc ->]. rewrite HcN in Hsc.
  apply bind_Ok in H as (u & w2 & H2 & H). apply ret_Ok in H as [-> ->].
  assert (default false (s_icx_tokens sc !! L) = icx_registered w N L) as Er.
  { rewrite <- (ledger_icxreg _ _ N L L1). unfold icx_registered, var; by rewrite Hsc. }
  rewrite Er in H2. unfold ecall in H2. rewrite HcN, Hro in H2.
  split; [done|]. split; [lia|]. split; [done|]. split; [done|]. exists w1. split; [done|]. split.
  - intros X b Hb. destruct (decide (b = N)) as [->|Hne]; [apply B1|]. rewrite B2, !credit_ne by done. lia.
  - exists f, u. by destruct (icx_registered w N L).
Qed.

Theorem token_any f u a T N p z v d w r w' : reachable adv w -> kind_at w N = Some KNet -> is_token w T -> genuine_path w p ->
  asks d (EOA u) p z a ->
  exec adv f false (EOA u) T 0 (MTransfer N v (Some d)) w = Ok (r, w') ->
  exists L x w1 w2, head p = Some T /\ last p = Some L /\ valid_path p = true /\ converted w p v = Some x /\ 0 < z <= x /\ 0 < v <= balance_of w T (EOA u) /\
    ledger_only w w1 /\ (forall X b, b ∉ converters w p -> balance_of w1 X b = balance_of w X b + credit T (EOA u) (- v) X b + credit L N x X b) /\
    pays_out adv w N L x a w1 w2 /\ w' = wlog T (EvTransfer (EOA u) N v d) w2.
Proof.
  intros Hr HN HT HG Hask H. destruct (kind_contract adv _ _ _ Hr HN) as [HN1 _].
  destruct (kind_token_at _ _ _ Hr HT) as [HT1 _]. destruct (token_sc _ _ HT) as (sc & Hsc & Hk).
  apply exec_transfer_inv in H as (_ & _ & _ & Hx & _ & _ & _ & f' & sc' & r2 & w2 & Ef & Hsc' & H & Ew'); [|done].
  assert (sc' = sc) as -> by congruence. rewrite HN1 in H. cbn [default] in H. change (id d) with d in *. cbn [default] in Ew'. change (id d) with d in *.
  set (w1 := wupd T _ [] w) in H.
  pose proof (eff_move w T sc (EOA u) N v Hsc) as E1. fold w1 in E1. pose proof (eff_ledger _ _ _ _ _ _ E1) as L1.
  destruct f' as [|f']; [done|].
  assert (kind_at w1 N = Some KNet) as HN' by (by rewrite (ledger_kind _ _ _ L1)).
  apply kind_at_Some in HN' as HN''. destruct HN'' as (scN & HscN & KN).
  destruct (proj1 (exec_honest_Ok adv f' false T N _ w1 scN KNet r2 w2 HN1 HscN KN ltac:(done)) H) as [_ H']. clear H. rename H' into H.
  apply net_fallback_inv in H. pose proof Hask as Hask'. apply asks_iff in Hask as (j & Hreq & Hj).
  destruct H as [[-> _]|(rest & rq & z' & y & Hd & Hrq & Hp & Hvp & Hz & Hz0 & _ & H)]; [done|].
  cbn [c_sender c_self c_ro orb is_readonly] in *. rewrite Hreq in Hrq. injection Hrq as <-. cbn [rq_path rq_min rq_for] in *. subst p.
  assert (z' = z) as -> by congruence.
  assert (Forall addr_ok (T :: rest)) as Hok.
  { destruct Hask' as (m & text & j' & _ & _ & Hp & _). by apply convert_path_ok in Hp. }
  apply Forall_cons in Hok as [_ Hok].
  destruct (genuine_env adv w N Hr HN rest T Hok HG) as [HTa HE].
  apply valid_path_iff in Hvp as Hvp'. destruct Hvp' as (Hlen & Hodd & HD).
  apply (internal_any N) in H; [|done|done|done|done|by eapply ledger_token_at|by eapply path_env_ledger|cbn in Hlen; lia|done].
  cbv zeta in H. set (L := last_token T rest) in *. destruct H as (Q & Hv0 & (m & Hm & Hmz) & HLt & w3 & L3 & B3 & HP).
  assert (m = z) as -> by congruence.
  assert (converters w1 (T :: rest) = converters w (T :: rest)) as Econv.
  { unfold converters. apply map_ext. intros g. by rewrite (ledger_owner _ _ _ L1). }
  rewrite Econv in B3.
  assert (forall g, g ∈ odd_positions (zero_score :: rest) -> owner_of w g <> EOA u /\ owner_of w g <> N /\ token_of w (owner_of w g) = g) as Hc.
  { intros g Hg. destruct (path_env_odd _ _ _ HE g Hg) as ((G1 & G2 & _) & G3 & _). split; [intros E; by rewrite E in G1|].
    split; [|done]. intros E. rewrite E in G2. congruence. }
  assert (path_executed w1 T rest v = path_executed w T rest v) as EQ.
  { unfold path_executed. eapply along_frame; [exact L1|exact HE|]. intros g Hg fr t0 v0.
    destruct (Hc _ Hg) as (D1 & D2 & D3). apply quote_frame; [done|..].
    - intros t. rewrite (eff_conn _ _ _ _ _ _ E1). apply add_virtual_0.
    - rewrite (eff_sup _ _ _ _ _ _ E1). unfold zero1. lia.
    - intros X. rewrite (eff_bal _ _ _ _ _ _ E1), !credit_ne by done. lia. }
  exists L, y, w3, w2. split; [done|]. split; [apply last_token_last, (path_env_even _ _ _ HE)|]. split; [done|]. split; [cbn; by rewrite <- EQ|].
  split; [done|]. split; [lia|]. split; [by eapply ledger_trans|]. split; [|split; [|done]].
  - intros X b Hb. rewrite B3, (eff_bal _ _ _ _ _ _ E1) by done. unfold credit. repeat case_decide; lia.
  - unfold pays_out in *. by rewrite <- (ledger_icxreg _ _ N L L1).
Qed.

Theorem coin_any f u a N text z v w r w' p : reachable adv w -> kind_at w N = Some KNet ->
  convert_path text = Some p -> genuine_path w p ->
  exec adv f false (EOA u) N v (MConvertFor text z a) w = Ok (r, w') ->
  exists T L x w1, r = RInt x /\ head p = Some T /\ last p = Some L /\ valid_path p = true /\ converted w p v = Some x /\ 0 < z <= x /\ 0 < v <= icx w (EOA u) /\
    scores_ledger w w1 /\ (forall X b, b ∉ converters w p -> balance_of w1 X b = balance_of w X b + credit L N x X b) /\
    (forall b, icx w1 b = icx w b - at_ (EOA u) v b + at_ T v b) /\
    pays_out adv w N L x a w1 w'.
Proof.
  intros Hr HN Htext HG H. destruct (kind_contract adv _ _ _ Hr HN) as [HN1 _].
  apply kind_at_Some in HN as HN'. destruct HN' as (scN & HscN & KN). destruct f as [|f]; [done|].
  apply exec_inv in H as (w0 & H0 & _ & H); [|apply exec_keeps].
  pose proof (move_icx_scores _ _ _ _ _ _ H0) as S0. pose proof (move_icx_eq _ _ _ _ _ _ H0) as I0.
  destruct H as [(? & -> & _)|(sc0 & _ & Hsc0 & _ & _ & H & _)]; [done|].
  rewrite S0, HscN in Hsc0. injection Hsc0 as <-. rewrite KN in H. specialize (H ltac:(done)).
  assert (w_scores w0 !! N = Some scN) as HscN0 by (by rewrite S0).
  eapply (convert_inv adv _ _ _ _ _ _ _ text z a) in H; [|done|exact HscN0].
  destruct H as (T & rest & r1 & w1 & x & Hp & Hvp & Hz & _ & _ & Hreg & H1 & H & ->). cbn [c_self c_ro c_value frame] in H1, H.
  rewrite Htext in Hp. injection Hp as ->.
  pose proof (convert_path_ok _ _ Htext) as Hok. apply Forall_cons in Hok as [_ Hok].
  destruct (genuine_env adv w N Hr HN rest T Hok HG) as [[HT1 HT2] HE].
  destruct (token_sc _ _ HT2) as (sc & Hsc & Hk). assert (w_scores w0 !! T = Some sc) as Hsc0 by (by rewrite S0).
  apply (exec_deposit adv _ _ _ _ _ _ _ _ sc) in H1 as (K & w0' & M1 & ->); [|done..].
  pose proof (move_icx_scores _ _ _ _ _ _ M1) as S1. pose proof (move_icx_eq _ _ _ _ _ _ M1) as I1. rewrite S0 in S1.
  assert (w_scores w0' !! T = Some sc) as Hsc1 by (by rewrite S1).
  pose proof (eff_mint w0' T sc N v [EvTransfer T N v data_none; EvIssuance v] Hsc1) as E1.
  set (w1 := wupd T _ _ w0') in H, E1. pose proof (eff_ledger _ _ _ _ _ _ E1) as L1.
  assert (kind_at w0' N = Some KNet) as HN0 by (unfold kind_at; by rewrite S1, HscN; cbn; rewrite KN).
  apply valid_path_iff in Hvp as Hvp'. destruct Hvp' as (Hlen & Hodd & HD).
  assert (path_env w0' N rest) as HE0 by (by eapply path_env_scores).
  assert (token_at w0' T) as HT0 by (split; [done|]; unfold is_token, kind_at in *; by rewrite S1).
  apply (internal_any N) in H; [|done|by rewrite (ledger_kind _ _ _ L1)|done|done|by eapply ledger_token_at|by eapply path_env_ledger|cbn in Hlen; lia|done].
  cbv zeta in H. set (L := last_token T rest) in *. destruct H as (Q & Hv0 & (z' & Hz' & Hzx) & HLt & w3 & L3 & B3 & HP).
  injection Hz' as <-.
  assert (forall a b, icx_registered w1 a b = icx_registered w a b) as Er.
  { intros a0 b0. rewrite (ledger_icxreg _ _ _ _ L1). unfold icx_registered, var. by rewrite S1. }
  assert (forall g, owner_of w1 g = owner_of w g) as Eo.
  { intros g. rewrite (ledger_owner _ _ _ L1). unfold owner_of, var. by rewrite S1. }
  assert (converters w1 (T :: rest) = converters w (T :: rest)) as Econv.
  { unfold converters. apply map_ext. intros g. by rewrite Eo. }
  rewrite Econv in B3.
  assert (forall X a, balance_of w0' X a = balance_of w X a) as EB by (intros; unfold balance_of, var; by rewrite S1).
  assert (path_executed w1 T rest v = path_executed w T rest v) as EQ.
  { rewrite <- (executed_scores _ _ S1). unfold path_executed. eapply along_frame; [exact L1|exact HE0|]. intros g Hg fr t0 v0.
    destruct (path_env_odd _ _ _ HE0 g Hg) as ((G1 & G2 & G4 & G5) & G3 & _). apply quote_frame; [done|..].
    - intros t. rewrite (eff_conn _ _ _ _ _ _ E1). apply add_virtual_0.
    - rewrite (eff_sup _ _ _ _ _ _ E1). rewrite decide_False; [lia|]. intros E. rewrite E in G5. unfold kind_at in G5. rewrite S1, Hsc in G5. cbn in G5. congruence.
    - intros X. rewrite (eff_bal _ _ _ _ _ _ E1), credit_ne; [lia|]. intros E. rewrite E in G2. congruence. }
  assert (0 < v <= icx w (EOA u)) as Hv.
  { apply move_icx_Ok in H0 as [[-> _]|(? & ? & _)]; lia. }
  exists T, L, x, w3. split; [done|]. split; [done|]. split; [apply last_token_last, (path_env_even _ _ _ HE)|]. split; [done|].
  split; [cbn; by rewrite <- EQ|]. split; [done|]. split; [done|]. split; [|split; [|split]].
  - intros X. destruct L1 as [_ L1]. destruct L3 as [_ L3]. specialize (L1 X). specialize (L3 X). rewrite S1 in L1. destruct (w_scores w !! X), (w_scores w1 !! X), (w_scores w3 !! X); try done. by eapply ledger_diff_trans.
  - intros X b Hb. rewrite B3, (eff_bal _ _ _ _ _ _ E1), EB by done. unfold credit. repeat case_decide; lia.
  - intros b. destruct L3 as [Li _]. unfold icx at 1. rewrite Li. change (icx w0' b = icx w b - at_ (EOA u) v b + at_ T v b). rewrite I1, I0. unfold at_. repeat case_decide; lia.
  - unfold pays_out in *. by rewrite <- Er.
Qed.
End any.
