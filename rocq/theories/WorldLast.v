(* C81: the last hop of a path alone enforces the minimum return. *)
From Coq Require Import String Ascii ZArith Lia.
From stdpp Require Import base countable list numbers strings gmap relations.
From Verif Require Import Res FormulaModel PoolSpec Codec CodecProofs World WorldBasics WorldSteps WorldExec WorldSpec WorldInv WorldMoney WorldAuth WorldNet WorldCalls WorldViews
  WorldConv WorldHop WorldPath WorldOwner WorldCoins WorldTrade WorldMore WorldLive TradingSpec WorldPool.
Local Open Scope Z_scope.

Section last.
Variable adv : adversary.
Variables (w0 : world) (n0 : N) (C N L from : addr).
Hypothesis Hreach : reachable adv w0.
Hypothesis Hset : pool_set_up w0 C.
Hypothesis Hout : stranger w0 C (EOA n0).
Notation F := (token_of w0 C).
Hypothesis HN : kind_at w0 N = Some KNet.
Hypothesis HL : L = F \/ L ∈ connectors_of w0 C.
Hypothesis Hfrom : from = F \/ from ∈ connectors_of w0 C.
Notation sinv := (sinv w0 n0).
Notation pinv := (pinv w0 n0 C).
Notation scall := (scall w0 n0).

(* no user loses L or coins *)
Definition gain (w w' : world) : Prop :=
  (forall n, balance_of w L (EOA n) <= balance_of w' L (EOA n)) /\ (forall n, icx w (EOA n) <= icx w' (EOA n)).
Lemma gain_refl w : gain w w.
Proof. split; intros; lia. Qed.
Lemma gain_trans w1 w2 w3 : gain w1 w2 -> gain w2 w3 -> gain w1 w3.
Proof. intros [A B] [A' B']. split; intros n; [specialize (A n); specialize (A' n)|specialize (B n); specialize (B' n)]; lia. Qed.

Lemma L_guarded : kind_at w0 L = Some KFlex -> guarded w0 n0 L.
Proof. intros K. destruct HL as [->|H]; [by eapply gF|by eapply gT]. Qed.
Lemma exec_gain fuel ro s t v m w r w' : sinv w -> scall s t v m -> is_contract s = true ->
  exec adv fuel ro s t v m w = Ok (r, w') -> gain w w'.
Proof.
  intros HI HA Hs H. pose proof (no_zero adv w0 Hreach) as Hz. pose proof L_guarded as HLG.
  enough (sinv w -> sinv w' /\ gain w w') as G by (by apply G).
  assert (scall s t v m /\ is_contract s = true) as HA' by done. clear HA Hs. revert HA' HI H.
  apply (exec_ind adv sinv (fun s t v m => scall s t v m /\ is_contract s = true) (fun w w' => sinv w -> sinv w' /\ gain w w')).
  - intros w1 HI. split; [done|apply gain_refl].
  - intros w1 w2 w3 A B HI. destruct (A HI) as [HI2 A']. destruct (B HI2) as [HI3 B']. split; [done|by eapply gain_trans].
  - intros w1 w2 HI A. by apply A.
  - intros s1 t1 v1 m1 w1 w2 [_ Hs] _ Hm HI. split; [by eapply sinv_icx|]. split; intros n.
    + by rewrite (balance_of_icx _ _ _ _ _ _ _ _ Hm).
    + rewrite (move_icx_eq _ _ _ _ _ _ Hm). pose proof (move_icx_nonneg _ _ _ _ _ _ Hm). rewrite (decide_False (P := EOA n = s1)) by (by intros <-).
      case_decide; lia.
  - intros w1 k c m1 sc sc' evs [HA Hs] HI Hc Hsc Hk _ Hv Hl _. split; [by eapply sinv_local|]. split; intros n; [|done].
    rewrite balance_of_upd. case_decide as E; [|lia]. rewrite E in *. rewrite (balance_of_sc _ _ _ _ Hsc).
    assert (c_sender c <> EOA n) as Hne by (intros Ec; by rewrite Ec in Hs).
    destruct Hl; try (unfold balance; cbn; lia); rewrite ?balance_set_supply, ?balance_add; repeat case_decide; subst; try lia; try done.
    exfalso. destruct H2 as [?|H2]; [done|].
    assert (kind_at w0 (c_self c) = Some KFlex) as K.
    { pose proof (tok_token w0 C Hset _ HL) as HT. assert (kind_at w1 (c_self c) = Some KFlex) as K1 by (unfold kind_at; rewrite Hsc; cbn; congruence).
      destruct HT as [E2|[E2|E2]]; [apply (si_kind _ _ _ HI) in E2; congruence..|done]. }
    pose proof (HLG K) as HG. destruct HA as (_ & _ & HA).
    pose proof (si_owner _ _ _ HI _ HG) as EO. unfold owner_of in EO. rewrite (var_sc _ _ _ _ _ Hsc) in EO.
    destruct HA as [_ HA]; [rewrite H2, EO; apply HG|]. specialize (HA _ _ eq_refl). done.
  - intros w1 k c m1 sc to v1 m' [HA Hs] HI Hc Hsc Hk Hcall. split; [|done]. by eapply scall_hcall.
  - intros w1 a sc to v1 m1 HI Ha Hsc Hk. split; [|done]. by eapply scall_adv.
Qed.

Definition st (w : world) : Prop := sinv w /\ pinv w.
Lemma N_facts : is_contract N = true /\ N <> zero_score /\ N <> C /\ ~ tok w0 C N.
Proof.
  destruct (kind_contract adv _ _ _ Hreach HN) as [A B]. split; [done|]. split; [done|]. split.
  - intros E. pose proof (kC w0 C Hset) as K. congruence.
  - intros HT. apply (tok_token w0 C Hset) in HT. destruct HT as [E|[E|E]]; congruence.
Qed.
(* a call made by the network *)
Lemma net_call f ro to v m w r w' : st w -> exec adv f ro N to v m w = Ok (r, w') ->
  administrative m = false -> (forall a x, m <> MDestroy a x) -> st w' /\ gain w w'.
Proof.
  intros [HI HP] H Hm1 Hm2. destruct N_facts as (N1 & N2 & N3 & N4).
  assert (scall N to v m) as HA. { split; [done|]. split; [intros n E; by rewrite E in N1|]. intros _. split; [done|]. intros a x E. by apply Hm2 in E. }
  split; [|by eapply exec_gain].
  destruct (exec_RR adv w0 n0 C Hreach Hset Hout f ro N to v m w r w' HA N3 ltac:(tauto) H HI HP) as (A & B & _). done.
Qed.

Lemma st_net w : st w -> kind_at w N = Some KNet.
Proof. intros [HI _]. by apply (si_kind _ _ _ HI). Qed.
Lemma st_token w t : st w -> tok w0 C t -> token_at w t.
Proof. intros [HI _]. by apply (tok_at adv w0 n0 C Hreach Hset). Qed.
Lemma st_hop w : st w -> genuine_hop w N F /\ owner_of w F = C.
Proof.
  intros [HI HP]. assert (owner_of w F = C) as EF by (by eapply owner_F). unfold genuine_hop. rewrite EF. split; [|done].
  destruct (pinv_conv adv w0 n0 C Hreach Hset w HI HP) as (HC & R1 & R2). split; [done|]. split; [apply HP|]. split; [done|]. split; [done|].
  rewrite (si_owner _ _ _ HI _ (gC w0 n0 C Hset Hout)). apply (net_no_owner adv w0 N C Hreach HN). exists KConv. split; [by apply kC|done].
Qed.

Lemma last_hop f c amount min w to x w' : c_self c = N -> st w -> addr_ok L ->
  convert_by_path (exec adv f) c from [F; L] amount min w = Ok ((to, x), w') ->
  to = L /\ st w' /\ gain w w' /\ exists z, json_int min = Some z /\ 0 < z <= x.
Proof.
  intros Hc HS Hok H. destruct N_facts as (N1 & N2 & N3 & N4).
  destruct (st_hop _ HS) as [Hh EF]. cbn [convert_by_path] in H. unfold ecall in H. rewrite Hc in H.
  apply bind_Ok in H as (r1 & w1 & H1 & H). apply owner_answer in H1 as [-> ->]; [|by eapply kind_c; [exact Hreach|apply HS|by apply kF]|apply (si_kind _ _ _ (proj1 HS)), (kF w0 C Hset)].
  apply bind_Ok in H as (conv & w1' & E & H). apply as_addr_Ok in E as [E ->]. injection E as <-.
  apply bind_Ok in H as (r2 & w2 & H2 & H). apply balance_answer in H2 as [-> ->]; [|by apply st_token].
  apply bind_Ok in H as (before & w2' & E & H). apply as_int_Ok in E as [E ->]. injection E as <-.
  apply bind_Ok in H as (r3 & w3 & H3 & H).
  destruct (net_call _ _ _ _ _ _ _ _ HS H3 ltac:(done) ltac:(done)) as [HS3 HG3].
  apply (hop_executed adv N N1) in H3 as (z & y & fee & Hv & Hj & Hz & Hne & _ & _ & _ & E1); [|by apply st_token|done|by apply st_net|by apply st_token|done].
  apply bind_Ok in H as (r4 & w4 & H4 & H). apply balance_answer in H4 as [-> ->]; [|by apply st_token].
  apply bind_Ok in H as (after & w4' & E & H). apply as_int_Ok in E as [E ->]. injection E as <-.
  apply ret_Ok in H as [E ->]. injection E as -> ->. split; [done|]. split; [done|]. split; [done|].
  exists z. split; [done|].
  rewrite (eff_bal _ _ _ _ _ _ E1), trade_balances_N, credit_eq, credit_ne1 by (rewrite ?EF; done). lia.
Qed.

Lemma even_nil (l : list addr) : (List.length l <= 1)%nat -> Nat.even (List.length l) = true -> l = [].
Proof. destruct l as [|a [|b l]]; cbn; [done|done|lia]. Qed.
Lemma path_last f c : c_self c = N -> addr_ok L -> forall rest p0 amount min w to x w',
  (exists pre, p0 :: rest = pre ++ [from; F; L] /\ Nat.even (List.length pre) = true) -> st w ->
  convert_by_path (exec adv f) c p0 rest amount min w = Ok ((to, x), w') ->
  to = L /\ st w' /\ gain w w' /\ exists z, json_int min = Some z /\ 0 < z <= x.
Proof.
  intros Hc Hok. refine (list_ind2 _ _ _ _).
  - intros p0 amount min w to x w' (pre & E & _) _ _. apply (f_equal List.length) in E. rewrite app_length in E. cbn in E. lia.
  - intros a p0 amount min w to x w' (pre & E & _) _ _. apply (f_equal List.length) in E. rewrite app_length in E. cbn in E. lia.
  - intros a b rest IH p0 amount min w to x w' (pre & E & Hev) HS H.
    destruct pre as [|q0 [|q1 pre]].
    { cbn in E. injection E as -> -> -> ->. by eapply last_hop. }
    { done. }
    cbn [app] in E. injection E as <- <- E. cbn [List.length Nat.even] in Hev.
    cbn [convert_by_path] in H. unfold ecall in H. rewrite Hc in H.
    apply bind_Ok in H as (r1 & w1 & H1 & H). destruct (net_call _ _ _ _ _ _ _ _ HS H1 ltac:(done) ltac:(done)) as [S1 G1].
    apply bind_Ok in H as (conv & w1' & E1 & H). apply as_addr_Ok in E1 as [-> ->].
    apply bind_Ok in H as (r2 & w2 & H2 & H). destruct (net_call _ _ _ _ _ _ _ _ S1 H2 ltac:(done) ltac:(done)) as [S2 G2].
    apply bind_Ok in H as (before & w2' & E1 & H). apply as_int_Ok in E1 as [-> ->].
    apply bind_Ok in H as (r3 & w3 & H3 & H). destruct (net_call _ _ _ _ _ _ _ _ S2 H3 ltac:(done) ltac:(done)) as [S3 G3].
    apply bind_Ok in H as (r4 & w4 & H4 & H). destruct (net_call _ _ _ _ _ _ _ _ S3 H4 ltac:(done) ltac:(done)) as [S4 G4].
    apply bind_Ok in H as (after & w4' & E1 & H). apply as_int_Ok in E1 as [-> ->].
    apply IH in H as (A1 & A2 & A3 & A4); [|by exists pre|done]. split; [done|]. split; [done|]. split; [|done].
    eauto using gain_trans.
Qed.

(* what the beneficiary n has gained: x of L, or as many coins if L is an ICX token *)
Definition delivered (w : world) (n : BinNums.N) (x : Z) (w' : world) : Prop :=
  balance_of w L (EOA n) + x <= balance_of w' L (EOA n) /\ icx w (EOA n) <= icx w' (EOA n) \/
  kind_at w L = Some KIcx /\ icx w (EOA n) + x <= icx w' (EOA n) /\ balance_of w L (EOA n) <= balance_of w' L (EOA n).
Lemma internal_last f c p0 rest amount min n w z w' : c_self c = N -> addr_ok L ->
  (exists pre, p0 :: rest = pre ++ [from; F; L] /\ Nat.even (List.length pre) = true) -> st w ->
  convert_for_internal (exec adv f) c (p0 :: rest) amount min (EOA n) w = Ok (z, w') ->
  st w' /\ gain w w' /\ (exists m, json_int min = Some m /\ 0 < m <= z) /\ delivered w n z w'.
Proof.
  intros Hc Hok Hp HS H. destruct N_facts as (N1 & N2 & N3 & N4). unfold convert_for_internal in H.
  apply bind_Ok in H as ([to x] & w1 & H1 & H). apply path_last in H1 as (-> & S1 & G1 & Hm); [|done..].
  apply bind_Ok in H as (sc & w2 & H2 & H). apply this_Ok in H2 as [Hsc ->]. rewrite Hc in Hsc.
  apply bind_Ok in H as (u & w2 & H2 & H). apply ret_Ok in H as [-> ->].
  assert (default false (s_icx_tokens sc !! L) = icx_registered w1 N L) as Er by (unfold icx_registered, var; by rewrite Hsc).
  rewrite Er in H2. unfold ecall in H2. rewrite Hc in H2.
  assert (st w2 /\ gain w1 w2) as [S2 G2] by (destruct (icx_registered w1 N L); by eapply net_call in H2).
  split; [done|]. split; [by eapply gain_trans|]. split; [done|].
  assert ((if icx_registered w1 N L then exec adv f (c_ro c) N L 0 (MWithdrawTo x (EOA n)) else exec adv f (c_ro c) N L 0 (MTransfer (EOA n) x (Some data_none))) w1 = Ok (u, w2)) as H2'
    by (by destruct (icx_registered w1 N L)).
  apply payout_inv in H2' as (Hx & Hi & _ & HB & _ & _ & HC); [|by apply st_token|by apply st_net|done].
  destruct G1 as [GB GC], G2 as [GB2 GC2]. specialize (GB n). specialize (GC n). specialize (GB2 n). specialize (GC2 n).
  assert (EOA n <> N) as Hne by (intros E; by rewrite <- E in N1).
  unfold delivered. unfold to_tokens, to_coins in *. destruct (icx_registered w1 N L).
  - right. assert (kind_at w L = Some KIcx) as HK.
    { destruct (Hi eq_refl) as [K _]. pose proof (tok_token w0 C Hset _ HL) as HT. destruct HS as [HI0 _]. destruct S1 as [HI1 _].
      destruct HT as [E|[E|E]]; pose proof (si_kind _ _ _ HI1 _ _ E) as E1; pose proof (si_kind _ _ _ HI0 _ _ E) as E0; congruence. }
    split; [done|]. split; [|lia]. rewrite HC in *. unfold at_ in *. rewrite (decide_True (P := EOA n = EOA n)) in * by done.
    destruct (decide (EOA n = L)) as [E|_]; [|lia]. destruct (Hi eq_refl) as [K _]. exfalso.
    destruct (st_token w1 L S1 HL) as [Hcon _]. by rewrite <- E in Hcon.
  - left. split; [|lia]. rewrite HB in *. rewrite credit_eq in *. rewrite credit_ne in * by done. lia.
Qed.

Lemma path_even p : valid_path p = true -> (exists pre, p = pre ++ [from; F; L]) -> exists pre, p = pre ++ [from; F; L] /\ Nat.even (List.length pre) = true.
Proof.
  intros H (pre & ->). exists pre. split; [done|]. apply valid_path_iff in H as (_ & H & _). rewrite app_length, Nat.odd_add in H. cbn in H.
  rewrite <- Nat.negb_odd. by destruct (Nat.odd (List.length pre)).
Qed.
Lemma st_start : st w0.
Proof. split; [apply sinv_start; by eapply no_zero|by apply pinv_start]. Qed.
Lemma path_L_ok text p : convert_path text = Some p -> (exists pre, p = pre ++ [from; F; L]) -> addr_ok L.
Proof.
  intros H (pre & ->). apply convert_path_ok in H. apply Forall_app in H as [_ H]. by repeat (apply Forall_cons in H as [? H]).
Qed.

Theorem token_last f n T p z v d r w' : is_token w0 T -> (exists pre, p = pre ++ [from; F; L]) -> asks d (EOA n0) p z (EOA n) ->
  exec adv f false (EOA n0) T 0 (MTransfer N v (Some d)) w0 = Ok (r, w') ->
  exists x, 0 < z <= x /\
    (balance_of w0 L (EOA n) - (if decide (L = T /\ n = n0) then v else 0) + x <= balance_of w' L (EOA n) \/
     kind_at w0 L = Some KIcx /\ icx w0 (EOA n) + x <= icx w' (EOA n)).
Proof.
  intros HT Hp Hask H. destruct N_facts as (N1 & N2 & N3 & N4). destruct st_start as [HI HP].
  apply exec_transfer_inv in H as (_ & _ & _ & Hx & _ & _ & _ & f' & sc & r2 & w2 & Ef & Hsc & H & Ew'); [|done].
  rewrite N1 in H. cbn [default] in H. change (id d) with d in *. cbn [default] in Ew'. change (id d) with d in *.
  set (w1 := wupd T _ [] w0) in H.
  pose proof (eff_move w0 T sc (EOA n0) N v Hsc) as E1. fold w1 in E1.
  assert (st w1) as S1 by (split; [by eapply sinv_eff|by eapply pinv_eff]).
  destruct f' as [|f']; [done|].
  pose proof (st_net _ S1) as HN'. apply kind_at_Some in HN'. destruct HN' as (scN & HscN & KN).
  destruct (proj1 (exec_honest_Ok adv f' false T N _ w1 scN KNet r2 w2 N1 HscN KN ltac:(done)) H) as [_ H']. clear H. rename H' into H.
  apply net_fallback_inv in H. pose proof Hask as Hask'. apply asks_iff in Hask as (j & Hreq & Hj).
  destruct H as [[-> _]|(rest & rq & z' & y & Hd & Hrq & Hpath & Hvp & Hz & Hz0 & _ & H)]; [done|].
  cbn [c_sender c_self c_ro orb is_readonly] in *. rewrite Hreq in Hrq. injection Hrq as <-. cbn [rq_path rq_min rq_for] in *. subst p.
  assert (z' = z) as -> by congruence.
  assert (addr_ok L) as Hok. { destruct Hask' as (m & text & j' & _ & _ & Hc & _). by eapply path_L_ok. }
  eapply internal_last in H as (S2 & _ & (m & Hm & Hmz) & HD); [|done|done|by apply path_even|done].
  assert (m = z) as -> by congruence. exists y. split; [lia|]. subst w'. change (balance_of (wlog _ _ w2) L (EOA n)) with (balance_of w2 L (EOA n)).
  change (icx (wlog _ _ w2) (EOA n)) with (icx w2 (EOA n)). unfold delivered in HD. change (icx w1 (EOA n)) with (icx w0 (EOA n)) in HD.
  assert (EOA n <> N) as Hne by (intros E; by rewrite <- E in N1).
  rewrite (eff_bal _ _ _ _ _ _ E1) in HD. unfold credit in HD. rewrite (decide_False (P := EOA n = N)) in HD by done.
  destruct HD as [[HB HC]|(HK & HC & HB)].
  - left. repeat case_decide; try lia; try congruence; naive_solver.
  - right. split; [|lia]. pose proof (tok_token w0 C Hset _ HL) as HLT. destruct S1 as [I1 _].
    destruct HLT as [E|[E|E]]; pose proof (si_kind _ _ _ I1 _ _ E); congruence.
Qed.

Theorem coin_last f n p text z v m r w' : convert_target m (EOA n0) = Some (text, z, EOA n) -> convert_path text = Some p ->
  (exists pre, p = pre ++ [from; F; L]) ->
  exec adv f false (EOA n0) N v m w0 = Ok (r, w') ->
  exists x, r = RInt x /\ 0 < z <= x /\
    (balance_of w0 L (EOA n) + x <= balance_of w' L (EOA n) \/
     kind_at w0 L = Some KIcx /\ icx w0 (EOA n) - (if decide (n = n0) then v else 0) + x <= icx w' (EOA n)).
Proof.
  intros Hm Htext Hp H. destruct N_facts as (N1 & N2 & N3 & N4). destruct st_start as [HI HP].
  pose proof HN as HN'. apply kind_at_Some in HN'. destruct HN' as (scN & HscN & KN). destruct f as [|f]; [done|].
  apply exec_inv in H as (w1 & H0 & _ & H); [|apply exec_keeps].
  pose proof (move_icx_scores _ _ _ _ _ _ H0) as S0. pose proof (move_icx_eq _ _ _ _ _ _ H0) as I0.
  destruct H as [(? & E & _)|(sc0 & _ & Hsc0 & _ & _ & H & _)]; [by rewrite E in N1|].
  rewrite S0, HscN in Hsc0. injection Hsc0 as <-. rewrite KN in H. specialize (H ltac:(done)).
  assert (w_scores w1 !! N = Some scN) as HscN0 by (by rewrite S0).
  eapply (convert_inv adv _ _ _ _ _ _ _ text z (EOA n)) in H; [|done|exact HscN0].
  destruct H as (T & rest & r1 & w2 & x & Hpath & Hvp & Hz & _ & _ & _ & H1 & H & ->). cbn [c_self c_ro c_value frame] in H1, H.
  rewrite Htext in Hpath. injection Hpath as ->.
  assert (st w1) as [HI1 HP1] by (edestruct RR_icx as (A1 & A2 & _); [..|exact H0|exact HI|exact HP|]; done).
  destruct (net_call _ _ _ _ _ _ _ _ (conj HI1 HP1) H1 ltac:(done) ltac:(done)) as [S2 [GB GC]].
  eapply internal_last in H as (S3 & _ & (m' & Hm' & Hmz) & HD); [|done|by eapply path_L_ok|by apply path_even|done].
  cbn in Hm'. injection Hm' as <-. exists x. split; [done|]. split; [done|].
  specialize (GB n). specialize (GC n). rewrite I0 in GC. rewrite (balance_of_icx _ _ _ _ _ _ _ _ H0) in GB.
  assert (EOA n <> N) as Hne by (intros E; by rewrite <- E in N1).
  rewrite (decide_False (P := EOA n = N)) in GC by done.
  destruct HD as [[HB HC]|(HK & HC & HB)].
  - left. lia.
  - right. split.
    + pose proof (tok_token w0 C Hset _ HL) as HLT. destruct S2 as [I2 _].
      destruct HLT as [E|[E|E]]; pose proof (si_kind _ _ _ I2 _ _ E); congruence.
    + repeat case_decide; try lia; congruence.
Qed.
End last.
