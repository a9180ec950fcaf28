(* Conversions requested by users, from the payment to the payout, and their quotes (C47, C49, C50). *)
From Coq Require Import String Ascii ZArith Lia.
From stdpp Require Import base countable list numbers strings gmap relations.
From Verif Require Import Res FormulaConsts FormulaModel Codec CodecProofs World WorldBasics WorldSteps WorldExec WorldSpec WorldInv WorldMoney WorldAuth WorldNet WorldCalls WorldViews WorldConv WorldHop WorldOwner WorldPath WorldCoins.
Local Open Scope Z_scope.
Local Open Scope M_scope.

Lemma asks_iff d from p z a : asks d from p z a <->
  exists j, convert_bytes_data d from = Some (Request p j a) /\ json_int j = Some z.
Proof.
  unfold convert_bytes_data. split.
  - intros (m & text & j & -> & E1 & E2 & E3 & E4 & E5). rewrite E1, E3, E2, E4. exists j. split; [|done].
    destruct E5 as [[[->| ->] ->]|(s & -> & ->)]; done.
  - intros (j & H & Hj). destruct d as [|m]; [done|].
    destruct (m !! "path"%string) as [[| | |text|]|] eqn:E1; try done.
    destruct (m !! "minReturn"%string) as [j'|] eqn:E3; [|done].
    destruct (convert_path text) as [p'|] eqn:E2; [|done]. destruct (json_int j') as [z'|] eqn:E4; [|done].
    destruct (m !! "for"%string) as [[| | |s|]|] eqn:E5; try done.
    + injection H as -> -> ->. exists m, text, j. repeat split; try done; try congruence. left. tauto.
    + destruct (addr_from_string s) eqn:E6; [|done]. injection H as -> -> ->. exists m, text, j. repeat split; try done; try congruence. right. by exists s.
    + injection H as -> -> ->. exists m, text, j. repeat split; try done; try congruence. left. tauto.
Qed.

Section env.
Variable adv : adversary.
Lemma kind_token_at w t : reachable adv w -> is_token w t -> token_at w t.
Proof. intros Hr H. split; [|done]. destruct H as [H|[H|H]]; by destruct (kind_contract adv _ _ _ Hr H). Qed.
Lemma genuine_env w N : reachable adv w -> kind_at w N = Some KNet -> forall rest from, Forall addr_ok rest ->
  genuine_path w (from :: rest) -> token_at w from /\ path_env w N rest.
Proof.
  intros Hr HN. refine (list_ind2 _ _ _ _).
  - intros from _ H. split; [by apply kind_token_at|done].
  - intros a from _ (_ & _ & _ & _ & []).
  - intros f to rest IH from Hok (Ht & Hf & Hc & Hreg & H). split; [by apply kind_token_at|].
    apply Forall_cons in Hok as [_ Hok]. apply Forall_cons in Hok as [Hok1 Hok].
    destruct (IH to Hok H) as [A B]. cbn. split; [|done].
    destruct (kind_contract adv _ _ _ Hr Hf) as [Hf1 _]. destruct (kind_contract adv _ _ _ Hr Hc) as [Hc1 _].
    destruct (kind_contract adv _ _ _ Hr Hreg) as [Hreg1 _].
    pose proof (conv_owns adv w _ f Hr Hc (flex_is_owned _ _ Hf) eq_refl) as E.
    unfold genuine_hop. split; [unfold conv_at; by rewrite E|]. do 3 (split; [done|]).
    apply (net_no_owner adv w N _ Hr HN). by exists KConv.
Qed.
Lemma path_env_odd w N rest : path_env w N rest -> forall f, f ∈ odd_positions (zero_score :: rest) -> genuine_hop w N f.
Proof.
  induction rest as [|a|g t rest IH] using list_ind2; [intros _ g Hg; by apply elem_of_nil in Hg|done|].
  intros (A & _ & _ & B) g' Hg'. cbn [odd_positions] in Hg'. apply elem_of_cons in Hg' as [->|Hg']; [done|].
  apply IH; [done|]. by destruct rest.
Qed.
Lemma path_env_even w N rest : path_env w N rest -> Nat.even (List.length rest) = true.
Proof. induction rest as [|a|g t rest IH] using list_ind2; [done|done|]. intros (_ & _ & _ & B). by apply IH. Qed.
Lemma last_token_last rest : forall from, Nat.even (List.length rest) = true -> last (from :: rest) = Some (last_token from rest).
Proof.
  induction rest as [|a|g t rest IH] using list_ind2; [done|done|]. intros from H. cbn in H. cbn [last_token].
  change (last (from :: g :: t :: rest)) with (last (t :: rest)). by apply IH.
Qed.

(* ------------------------------------------------------------ the quote ---- *)
Lemma expected_return_inv N f c : forall rest from amount w x w', token_at w from -> path_env w N rest ->
  expected_return (exec adv f) c from rest amount w = Ok (x, w') -> path_quote w from rest amount = Some x /\ w' = w.
Proof.
  refine (list_ind2 _ _ _ _).
  - intros from amount w x w' _ _ H. cbn in H. apply ret_Ok in H as [-> ->]. done.
  - intros a from amount w x w' _ _ H. cbn in H. apply ret_Ok in H as [-> ->]. done.
  - intros F to rest IH from amount w x w' HT (Hh & Hto & Hok & HE) H.
    pose proof Hh as (HC & HF & _). pose proof HC as (_ & _ & HF1 & HF2). rewrite HF in HF1, HF2.
    cbn [expected_return] in H. unfold ecall in H.
    apply bind_Ok in H as (r & w0 & H0 & H). apply owner_answer in H0 as [-> ->]; [|done|done].
    apply bind_Ok in H as (C & w0 & H0 & H). cbn in H0. apply ret_Ok in H0 as [-> ->].
    apply bind_Ok in H as (r & w0 & H0 & H). apply exec_getReturn_inv in H0 as (y & fee & Hq & -> & ->); [|done..].
    unfold path_quote. cbn [along]. rewrite Hq. by eapply IH.
Qed.
Lemma expected_return_ok N f c : forall rest from amount w x, token_at w from -> path_env w N rest ->
  path_quote w from rest amount = Some x -> expected_return (exec adv (S (S f))) c from rest amount w = Ok (x, w).
Proof.
  refine (list_ind2 _ _ _ _).
  - intros from amount w x _ _ H. unfold path_quote in H. cbn in H. by injection H as ->.
  - intros a from amount w x _ [] H.
  - intros F to rest IH from amount w x HT (Hh & Hto & Hok & HE) H.
    pose proof Hh as (HC & HF & _). pose proof HC as (_ & _ & HF1 & HF2). rewrite HF in HF1, HF2.
    unfold path_quote in H. cbn [along] in H. destruct (quote w _ _ _ _) as [[y fee]|] eqn:Hq; [|done].
    cbn [expected_return]. unfold ecall.
    apply bind_Ok. eexists _, _. split; [exact (proj1 (owned_answers adv w F HF1 (flex_is_owned _ _ HF2)) _ _ _)|].
    apply bind_Ok. exists (owner_of w F), w. split; [done|].
    apply bind_Ok. eexists _, _. split; [by apply exec_getReturn_ok|]. by apply IH.
Qed.
Definition quoted (w : world) (p : list addr) (v : Z) : option Z := match p with from :: rest => path_quote w from rest v | [] => None end.
Definition converted (w : world) (p : list addr) (v : Z) : option Z := match p with from :: rest => path_executed w from rest v | [] => None end.
Theorem expected_return_iff f ro s N text p v w r w' : reachable adv w -> kind_at w N = Some KNet ->
  convert_path text = Some p -> genuine_path w p ->
  exec adv (S (S (S f))) ro s N 0 (MGetExpectedReturnByPath text v) w = Ok (r, w') <->
  (valid_path p = true /\ 0 < v) /\ exists x, quoted w p v = Some x /\ r = RInt x /\ w' = w.
Proof.
  intros Hr HN Hp HG. destruct (kind_contract adv _ _ _ Hr HN) as [HN1 _]. apply kind_at_Some in HN as HN'. destruct HN' as (sc & Hsc & K).
  rewrite (exec_honest_Ok adv _ ro s N _ w sc KNet r w' HN1 Hsc K ltac:(done)).
  pose proof (convert_path_ok _ _ Hp) as Hok. destruct p as [|from rest]; [done|].
  apply Forall_cons in Hok as [_ Hok]. destruct (genuine_env w N Hr HN rest from Hok HG) as [HT HE].
  cbn -[getExpectedReturnByPath bind exec]. unfold getExpectedReturnByPath. rewrite Hp. unfold require_valid_path, require_positive_value. split.
  - intros [_ H]. apply bind_Ok in H as (z & w1 & H & H'). apply ret_Ok in H' as [-> ->].
    apply bind_Ok in H as (u & w2 & H0 & H). apply require_Ok in H0 as [Hvp ->].
    apply bind_Ok in H as (u1 & w2 & H0 & H). apply require_Ok in H0 as [Hv ->]. apply Z.ltb_lt in Hv.
    apply (expected_return_inv N) in H as [H ->]; [|done..]. split; [done|]. by exists z.
  - intros ([Hvp Hv] & x & Hq & -> & ->). split; [by right|].
    apply bind_Ok. exists x, w. split; [|done].
    apply bind_Ok. exists tt, w. split; [by apply (require_Ok _ _ _ tt)|].
    apply bind_Ok. exists tt, w. split; [apply (require_Ok _ _ _ tt); split; [by apply Z.ltb_lt|done]|].
    by apply (expected_return_ok N).
Qed.

(* ----------------------------------------------------------- the payout ---- *)
Lemma ledger_after w t sc sc' evs u v' v : w_scores w !! t = Some sc -> ledger_diff sc sc' -> scores_ledger w (after t sc' evs (paid u v' v w)).
Proof.
  intros Hs Hl X. cbn. destruct (decide (X = t)) as [->|Hne].
  - by rewrite lookup_insert, Hs.
  - rewrite lookup_insert_ne by done. destruct (w_scores w !! X); [apply ledger_diff_refl|done].
Qed.
Lemma after_wupd t sc evs w : after t sc evs w = wupd t sc (rev evs) w.
Proof. unfold after, wupd. by rewrite map_rev. Qed.
Lemma payout_inv f ro N L x n w r w' : token_at w L -> kind_at w N = Some KNet -> is_contract N = true ->
  (if icx_registered w N L then exec adv f ro N L 0 (MWithdrawTo x (EOA n)) else exec adv f ro N L 0 (MTransfer (EOA n) x (Some data_none))) w = Ok (r, w') ->
  0 <= x <= balance_of w L N /\ (icx_registered w N L = true -> kind_at w L = Some KIcx /\ x <= icx w L) /\
  scores_ledger w w' /\
  (forall X a, balance_of w' X a = balance_of w X a + credit L N (- x) X a + credit L (EOA n) (to_tokens w N L x) X a) /\
  (forall X, supply_of w' X = supply_of w X - at_ L (to_coins w N L x) X) /\
  (forall X t, connector_of w' X t = connector_of w X t) /\
  (forall a, icx w' a = icx w a - at_ L (to_coins w N L x) a + at_ (EOA n) (to_coins w N L x) a).
Proof.
  intros [HL1 HL2] HN HN1 H. destruct (token_sc _ _ HL2) as (sc & Hsc & Hk). unfold to_tokens, to_coins.
  assert (s_kind sc <> KAdv) as HnA by (by intros E; rewrite E in Hk).
  assert (ro = false) as ->.
  { destruct f as [|f]; [by destruct (icx_registered w N L)|]. destruct ro; [|done].
    destruct (icx_registered w N L);
      (destruct (proj1 (exec_honest_Ok adv _ _ _ _ _ _ _ _ _ _ HL1 Hsc eq_refl HnA) H) as [[?|?] _]; done). }
  destruct (icx_registered w N L).
  - destruct f as [|f]; [done|]. assert (s_kind sc = KIcx) as K.
    { destruct (proj1 (exec_honest_Ok adv _ _ _ _ _ _ _ _ _ _ HL1 Hsc eq_refl HnA) H) as [_ H']. by destruct (s_kind sc). }
    destruct f as [|f].
    { exfalso. destruct (proj1 (exec_honest_Ok adv _ _ _ _ _ _ _ _ _ _ HL1 Hsc K ltac:(done)) H) as [_ H'].
      cbn -[icx_withdrawTo] in H'. unfold done_, icx_withdrawTo, icx_transfer in H'. mrun H'. }
    destruct (proj1 (withdrawTo_iff adv f N L w sc HL1 Hsc K x n r w') H) as ((A & B) & _ & ->). clear H.
    rewrite (balance_of_sc _ _ _ _ Hsc). split; [lia|]. split; [intros _; split; [|done]; unfold kind_at; rewrite Hsc; cbn; by rewrite K|].
    split; [eapply ledger_after; [done|apply ledger_diff_supply]|].
    assert (L <> EOA n) as HLn by (by destruct L). rewrite after_wupd. split; [|split; [|split]].
    + intros X a. rewrite balance_of_upd. unfold credit. change (balance_of (paid L (EOA n) x w) X a) with (balance_of w X a).
      case_decide; [|lia]. subst. rewrite balance_set_supply, balance_add, (balance_of_sc _ _ _ _ Hsc). repeat case_decide; lia.
    + intros X. rewrite supply_of_upd. unfold at_. change (supply_of (paid L (EOA n) x w) X) with (supply_of w X).
      case_decide; [subst; rewrite (supply_of_sc _ _ _ Hsc); cbn; lia|lia].
    + intros X t. rewrite connector_of_upd. case_decide; [subst; by rewrite (connector_of_sc _ _ _ _ Hsc)|done].
    + intros a. change (icx (wupd ?a ?b ?c ?d)) with (icx d). rewrite paid_icx by done. unfold at_. lia.
  - destruct f as [|f]; [done|].
    destruct (proj1 (transfer_user_iff adv f N L w sc HL1 Hsc (EOA n) x (Some data_none) r w' Hk eq_refl) H) as ((A & B) & _ & ->). clear H.
    rewrite (balance_of_sc _ _ _ _ Hsc). split; [lia|]. split; [done|]. rewrite after_wupd.
    split; [refine (proj2 (ledger_put w L sc _ _ Hsc _)); eapply ledger_diff_trans; apply ledger_diff_bal|]. unfold at_. split; [|split; [|split]].
    + intros X a. rewrite balance_of_upd. unfold credit. case_decide; [|lia]. subst.
      rewrite !balance_add, (balance_of_sc _ _ _ _ Hsc). repeat case_decide; lia.
    + intros X. rewrite supply_of_upd. case_decide; [subst; rewrite (supply_of_sc _ _ _ Hsc); cbn; lia|repeat case_decide; lia].
    + intros X t. rewrite connector_of_upd. case_decide; [subst; by rewrite (connector_of_sc _ _ _ _ Hsc)|done].
    + intros a. change (icx (wupd ?a ?b ?c ?d)) with (icx d). repeat case_decide; lia.
Qed.

(* ----------------------------------------------- conversion and payout ---- *)
Lemma internal_run N f c from rest amount min n w z w' : is_contract N = true -> kind_at w N = Some KNet -> c_self c = N -> token_at w from ->
  path_env w N rest -> (1 < List.length rest)%nat -> NoDup (odd_positions (from :: rest)) ->
  convert_for_internal (exec adv f) c (from :: rest) amount min (EOA n) w = Ok (z, w') ->
  let L := last_token from rest in
  path_executed w from rest amount = Some z /\ 0 < amount /\ (exists m, json_int min = Some m /\ 0 < m <= z) /\ token_at w L /\
  (icx_registered w N L = true -> kind_at w L = Some KIcx /\ z <= icx w L) /\
  scores_ledger w w' /\
  (forall X a, a ∉ converters w (from :: rest) ->
     balance_of w' X a = balance_of w X a + credit from N (- amount) X a + credit L (EOA n) (to_tokens w N L z) X a) /\
  (forall X, X ∉ odd_positions (from :: rest) -> supply_of w' X = supply_of w X - at_ L (to_coins w N L z) X) /\
  (forall C t, C ∉ converters w (from :: rest) -> connector_of w' C t = connector_of w C t) /\
  (forall a, icx w' a = icx w a - at_ L (to_coins w N L z) a + at_ (EOA n) (to_coins w N L z) a).
Proof.
  intros HN1 HN HcN HT HE Hlen HD H L. unfold convert_for_internal in H.
  apply bind_Ok in H as ([to x] & w1 & H1 & H).
  destruct (path_run adv N HN1 f c HcN rest from amount min w to x w1 HN HT HE HD H1) as (Q & -> & Ht & (L1 & B1 & B2 & B3 & B4) & Hm). fold L in Ht, B1, H.
  destruct (Hm Hlen (path_env_even _ _ _ HE)) as [Ham Hm']. clear Hm. rename Hm' into Hm.
  apply bind_Ok in H as (sc & w2 & H2 & H). apply this_Ok in H2 as [Hsc ->]. rewrite HcN in Hsc.
  apply bind_Ok in H as (u & w2 & H2 & H). apply ret_Ok in H as [-> ->].
  assert (default false (s_icx_tokens sc !! L) = icx_registered w1 N L) as Er by (unfold icx_registered, var; by rewrite Hsc).
  rewrite Er in H2. unfold ecall in H2. rewrite HcN in H2.
  pose proof (ledger_token_at _ _ _ L1 Ht) as Ht1. assert (kind_at w1 N = Some KNet) as HN' by (by rewrite (ledger_kind _ _ _ L1)).
  assert (to_tokens w1 N L x = to_tokens w N L x) as Ett by (unfold to_tokens; by rewrite (ledger_icxreg _ _ _ _ L1)).
  assert (to_coins w1 N L x = to_coins w N L x) as Etc by (unfold to_coins; by rewrite (ledger_icxreg _ _ _ _ L1)).
  apply payout_inv in H2 as (P1 & P2 & P3 & P4 & P5 & P6 & P7); [|done..].
  rewrite Ett in P4. rewrite Etc in P5, P7. destruct L1 as [Li Ls].
  assert (forall a, icx w1 a = icx w a) as Ei by (intros; unfold icx; by rewrite Li).
  split; [done|]. split; [lia|]. split; [done|]. split; [done|]. split; [|split; [|split; [|split; [|split]]]].
  - intros E. rewrite <- (Ei L). rewrite (ledger_icxreg _ _ _ _ (conj Li Ls)) in P2. rewrite (ledger_kind _ _ _ (conj Li Ls)) in P2. by apply P2.
  - intros X. specialize (Ls X). specialize (P3 X). destruct (w_scores w !! X), (w_scores w1 !! X), (w_scores w2 !! X); try done. by eapply ledger_diff_trans.
  - intros X a Ha. rewrite P4. destruct (decide (a = N)) as [->|HaN].
    + rewrite B1. unfold credit. repeat case_decide; lia.
    + rewrite B2 by done. unfold credit. repeat case_decide; try lia; congruence.
  - intros X HX. rewrite P5, B3 by done. done.
  - intros C t HC. rewrite P6. by apply B4.
  - intros a. rewrite P7, Ei. done.
Qed.

(* -------------------------------------------- requests with token transfers ---- *)
Theorem token_trade f u n T N p z v d w r w' : reachable adv w -> kind_at w N = Some KNet -> is_token w T -> genuine_path w p ->
  asks d (EOA u) p z (EOA n) ->
  exec adv f false (EOA u) T 0 (MTransfer N v (Some d)) w = Ok (r, w') ->
  exists L x, head p = Some T /\ last p = Some L /\ valid_path p = true /\ converted w p v = Some x /\ 0 < z <= x /\ 0 < v <= balance_of w T (EOA u) /\
  (icx_registered w N L = true -> kind_at w L = Some KIcx) /\
  scores_ledger w w' /\
  (forall X a, a ∉ converters w p -> balance_of w' X a = balance_of w X a + credit T (EOA u) (- v) X a + credit L (EOA n) (to_tokens w N L x) X a) /\
  (forall X, X ∉ odd_positions p -> supply_of w' X = supply_of w X - at_ L (to_coins w N L x) X) /\
  (forall C t, C ∉ converters w p -> connector_of w' C t = connector_of w C t) /\
  (forall a, icx w' a = icx w a - at_ L (to_coins w N L x) a + at_ (EOA n) (to_coins w N L x) a).
Proof.
  intros Hr HN HT HG Hask H. destruct (kind_contract adv _ _ _ Hr HN) as [HN1 _].
  destruct (kind_token_at _ _ Hr HT) as [HT1 _]. destruct (token_sc _ _ HT) as (sc & Hsc & Hk). destruct f as [|f]; [done|].
  assert (s_kind sc <> KAdv) as HnA by (by intros E; rewrite E in Hk).
  destruct (proj1 (exec_honest_Ok adv f false (EOA u) T _ w sc (s_kind sc) r w' HT1 Hsc eq_refl HnA) H) as [_ H']. clear H. rename H' into H.
  eapply token_transfer_inv in H; [|done|exact Hsc]. cbn [c_self c_sender c_ro default orb is_readonly] in H.
  destruct H as (Hx & _ & _ & -> & r2 & w2 & H & ->). rewrite HN1 in H.
  rewrite <- (balance_of_sc _ _ _ _ Hsc) in Hx.
  set (w1 := wupd T _ [] w) in H.
  pose proof (eff_move w T sc (EOA u) N v Hsc) as E1. fold w1 in E1. pose proof (eff_ledger _ _ _ _ _ _ E1) as L1.
  destruct f as [|f]; [done|].
  assert (kind_at w1 N = Some KNet) as HN' by (by rewrite (ledger_kind _ _ _ L1)).
  apply kind_at_Some in HN' as HN''. destruct HN'' as (scN & HscN & KN).
  destruct (proj1 (exec_honest_Ok adv f false T N _ w1 scN KNet r2 w2 HN1 HscN KN ltac:(done)) H) as [_ H']. clear H. rename H' into H.
  change (id d) with d in *. apply net_fallback_inv in H. apply asks_iff in Hask as (j & Hreq & Hj).
  destruct H as [[-> _]|(rest & rq & z' & y & Hd & Hrq & Hp & Hvp & Hz & Hz0 & _ & H)]; [done|].
  cbn [c_sender c_self c_ro orb is_readonly] in *. rewrite Hreq in Hrq. injection Hrq as <-. cbn [rq_path rq_min rq_for] in *. subst p.
  assert (z' = z) as -> by congruence.
  assert (Forall addr_ok (T :: rest)) as Hok.
  { unfold convert_bytes_data in Hreq. destruct d as [|m]; [done|]. destruct (m !! "path"%string) as [[| | |text|]|]; try done.
    destruct (m !! "minReturn"%string); [|done]. destruct (convert_path text) as [p'|] eqn:E2; [|done].
    apply convert_path_ok in E2. destruct (json_int _); [|done]. destruct (m !! "for"%string) as [[| | |s|]|]; try done; try congruence.
    destruct (addr_from_string s); [|done]. congruence. }
  apply Forall_cons in Hok as [_ Hok].
  destruct (genuine_env w N Hr HN rest T Hok HG) as [HTa HE].
  apply valid_path_iff in Hvp as Hvp'. destruct Hvp' as (Hlen & Hodd & HD).
  apply (internal_run N) in H; [|done|done|done|by eapply ledger_token_at|by eapply path_env_ledger|cbn in Hlen; lia|done].
  cbv zeta in H. set (L := last_token T rest) in *. destruct H as (Q & Hv0 & (m & Hm & Hmz) & HLt & Hicx & Ls & B1 & B2 & B3 & B4).
  assert (to_tokens w1 N L y = to_tokens w N L y) as Ett by (unfold to_tokens; by rewrite (ledger_icxreg _ _ _ _ L1)).
  assert (to_coins w1 N L y = to_coins w N L y) as Etc by (unfold to_coins; by rewrite (ledger_icxreg _ _ _ _ L1)).
  rewrite Ett in B1. rewrite Etc in B2, B4. assert (m = z) as -> by congruence.
  assert (converters w1 (T :: rest) = converters w (T :: rest)) as Econv.
  { unfold converters. apply map_ext. intros g. by rewrite (ledger_owner _ _ _ L1). }
  rewrite Econv in B1, B3.
  assert (forall g, g ∈ odd_positions (zero_score :: rest) -> owner_of w g <> EOA u /\ owner_of w g <> N /\ token_of w (owner_of w g) = g) as Hc.
  { intros g Hg. destruct (path_env_odd _ _ _ HE g Hg) as ((G1 & G2 & _) & G3 & _). split; [intros E; by rewrite E in G1|].
    split; [|done]. intros E. rewrite E in G2. congruence. }
  assert (path_executed w1 T rest v = path_executed w T rest v) as EQ.
  { unfold path_executed. eapply along_frame; [exact L1|exact HE|]. intros g Hg fr t0 v0.
    destruct (Hc _ Hg) as (D1 & D2 & D3). apply quote_frame; [done|..].
    - intros t. rewrite (eff_conn _ _ _ _ _ _ E1). apply add_virtual_0.
    - rewrite (eff_sup _ _ _ _ _ _ E1). unfold zero1. lia.
    - intros X. rewrite (eff_bal _ _ _ _ _ _ E1), !credit_ne by done. lia. }
  exists L, y. split; [done|]. split; [apply last_token_last, (path_env_even _ _ _ HE)|]. split; [done|]. split; [cbn; by rewrite <- EQ|].
  split; [done|]. split; [lia|]. split; [|split; [|split; [|split; [|split]]]].
  - intros E. rewrite <- (ledger_icxreg _ _ _ _ L1) in E. destruct (Hicx E) as [G _]. by rewrite (ledger_kind _ _ _ L1) in G.
  - intros X. destruct L1 as [_ L1]. specialize (L1 X). specialize (Ls X). cbn. destruct (w_scores w !! X), (w_scores w1 !! X), (w_scores w2 !! X); try done. by eapply ledger_diff_trans.
  - intros X a Ha. change (balance_of (wlog ?t ?e ?x)) with (balance_of x). rewrite B1, (eff_bal _ _ _ _ _ _ E1) by done. unfold credit. repeat case_decide; lia.
  - intros X HX. change (supply_of (wlog ?t ?e ?x)) with (supply_of x). rewrite B2, (eff_sup _ _ _ _ _ _ E1) by done. unfold zero1. lia.
  - intros C t HC. change (connector_of (wlog ?a ?e ?x)) with (connector_of x). rewrite B3, (eff_conn _ _ _ _ _ _ E1) by done. apply add_virtual_0.
  - intros a. change (icx (wlog ?t ?e ?x)) with (icx x). rewrite B4. done.
Qed.

(* ------------------------------------------------------ requests with coins ---- *)
Lemma path_env_scores w w' N rest : w_scores w' = w_scores w -> path_env w N rest -> path_env w' N rest.
Proof.
  intros E. destruct w as [i s l], w' as [i' s' l']. cbn in E. subst s'.
  induction rest as [|a|f to rest IH] using list_ind2; [done|done|]. intros (A & B & C & D). exact (conj A (conj B (conj C (IH D)))).
Qed.
Lemma executed_scores w w' : w_scores w' = w_scores w -> forall rest from v, path_executed w' from rest v = path_executed w from rest v.
Proof.
  intros E. destruct w as [i s l], w' as [i' s' l']. cbn in E. subst s'.
  refine (list_ind2 _ _ _ _); [done|done|]. intros f to rest IH from v. unfold path_executed in *. cbn [along].
  change (executed_quote (World i' s l')) with (executed_quote (World i s l)) in *.
  change (owner_of (World i' s l')) with (owner_of (World i s l)). destruct (executed_quote _ _ _ _ _) as [[x fee]|]; [apply IH|done].
Qed.
Theorem coin_trade f u n N text z v m w r w' p : reachable adv w -> kind_at w N = Some KNet ->
  convert_path text = Some p -> genuine_path w p ->
  m = MConvertFor text z (EOA n) \/ m = MConvert text z /\ n = u ->
  exec adv f false (EOA u) N v m w = Ok (r, w') ->
  exists T L x, r = RInt x /\ head p = Some T /\ last p = Some L /\ valid_path p = true /\
  icx_registered w N T = true /\ kind_at w T = Some KIcx /\ converted w p v = Some x /\ 0 < z <= x /\ 0 < v <= icx w (EOA u) /\
  (icx_registered w N L = true -> kind_at w L = Some KIcx) /\
  scores_ledger w w' /\
  (forall X a, a ∉ converters w p -> balance_of w' X a = balance_of w X a + credit L (EOA n) (to_tokens w N L x) X a) /\
  (forall X, X ∉ odd_positions p -> supply_of w' X = supply_of w X + at_ T v X - at_ L (to_coins w N L x) X) /\
  (forall C t, C ∉ converters w p -> connector_of w' C t = connector_of w C t) /\
  (forall a, icx w' a = icx w a - at_ (EOA u) v a + at_ T v a - at_ L (to_coins w N L x) a + at_ (EOA n) (to_coins w N L x) a).
Proof.
  intros Hr HN Htext HG Hm H. destruct (kind_contract adv _ _ _ Hr HN) as [HN1 _].
  apply kind_at_Some in HN as HN'. destruct HN' as (scN & HscN & KN). destruct f as [|f]; [done|].
  apply exec_inv in H as (w0 & H0 & _ & H); [|apply exec_keeps].
  pose proof (move_icx_scores _ _ _ _ _ _ H0) as S0. pose proof (move_icx_eq _ _ _ _ _ _ H0) as I0.
  destruct H as [(? & -> & _)|(sc0 & _ & Hsc0 & _ & _ & H & _)]; [done|].
  rewrite S0, HscN in Hsc0. injection Hsc0 as <-. rewrite KN in H. specialize (H ltac:(done)).
  assert (convert_target m (EOA u) = Some (text, z, EOA n)) as Ht by (destruct Hm as [->|[-> ->]]; done).
  assert (w_scores w0 !! N = Some scN) as HscN0 by (by rewrite S0).
  eapply convert_inv in H; [|exact Ht|exact HscN0].
  destruct H as (T & rest & r1 & w1 & x & Hp & Hvp & Hz & _ & _ & Hreg & H1 & H & ->). cbn [c_self c_ro c_value frame] in H1, H.
  rewrite Htext in Hp. injection Hp as ->.
  pose proof (convert_path_ok _ _ Htext) as Hok. apply Forall_cons in Hok as [_ Hok].
  destruct (genuine_env w N Hr HN rest T Hok HG) as [[HT1 HT2] HE].
  destruct (token_sc _ _ HT2) as (sc & Hsc & Hk). assert (w_scores w0 !! T = Some sc) as Hsc0 by (by rewrite S0).
  apply (exec_deposit adv _ _ _ _ _ _ _ _ sc) in H1 as (K & w0' & M1 & ->); [|done..].
  pose proof (move_icx_scores _ _ _ _ _ _ M1) as S1. pose proof (move_icx_eq _ _ _ _ _ _ M1) as I1. rewrite S0 in S1.
  assert (w_scores w0' !! T = Some sc) as Hsc1 by (by rewrite S1).
  pose proof (eff_mint w0' T sc N v [EvTransfer T N v data_none; EvIssuance v] Hsc1) as E1.
  set (w1 := wupd T _ _ w0') in H, E1. pose proof (eff_ledger _ _ _ _ _ _ E1) as L1.
  assert (kind_at w0' N = Some KNet) as HN0 by (unfold kind_at; by rewrite S1, HscN; cbn; rewrite KN).
  apply valid_path_iff in Hvp as Hvp'. destruct Hvp' as (Hlen & Hodd & HD).
  assert (path_env w0' N rest) as HE0 by (by eapply path_env_scores).
  assert (token_at w0' T) as HT0 by (split; [done|]; unfold is_token, kind_at in *; by rewrite S1).
  apply (internal_run N) in H; [|done|by rewrite (ledger_kind _ _ _ L1)|done|by eapply ledger_token_at|by eapply path_env_ledger|cbn in Hlen; lia|done].
  cbv zeta in H. set (L := last_token T rest) in *. destruct H as (Q & Hv0 & (z' & Hz' & Hzx) & HLt & Hicx & Ls & B1 & B2 & B3 & B4).
  injection Hz' as <-.
  assert (forall a b, icx_registered w1 a b = icx_registered w a b) as Er.
  { intros a b. rewrite (ledger_icxreg _ _ _ _ L1). unfold icx_registered, var. by rewrite S1. }
  assert (to_tokens w1 N L x = to_tokens w N L x) as Ett by (unfold to_tokens; by rewrite Er).
  assert (to_coins w1 N L x = to_coins w N L x) as Etc by (unfold to_coins; by rewrite Er).
  rewrite Ett in B1. rewrite Etc in B2, B4.
  assert (forall g, owner_of w1 g = owner_of w g) as Eo.
  { intros g. rewrite (ledger_owner _ _ _ L1). unfold owner_of, var. by rewrite S1. }
  assert (converters w1 (T :: rest) = converters w (T :: rest)) as Econv.
  { unfold converters. apply map_ext. intros g. by rewrite Eo. }
  rewrite Econv in B1, B3.
  assert (forall X a, balance_of w0' X a = balance_of w X a) as EB by (intros; unfold balance_of, var; by rewrite S1).
  assert (forall X, supply_of w0' X = supply_of w X) as ES by (intros; unfold supply_of, var; by rewrite S1).
  assert (forall X t, connector_of w0' X t = connector_of w X t) as EC by (intros; unfold connector_of, var; by rewrite S1).
  assert (path_executed w1 T rest v = path_executed w T rest v) as EQ.
  { rewrite <- (executed_scores _ _ S1). unfold path_executed. eapply along_frame; [exact L1|exact HE0|]. intros g Hg fr t0 v0.
    destruct (path_env_odd _ _ _ HE0 g Hg) as ((G1 & G2 & G4 & G5) & G3 & _). apply quote_frame; [done|..].
    - intros t. rewrite (eff_conn _ _ _ _ _ _ E1). apply add_virtual_0.
    - rewrite (eff_sup _ _ _ _ _ _ E1). rewrite decide_False; [lia|]. intros E. rewrite E in G5. unfold kind_at in G5. rewrite S1, Hsc in G5. cbn in G5. congruence.
    - intros X. rewrite (eff_bal _ _ _ _ _ _ E1), credit_ne; [lia|]. intros E. rewrite E in G2. congruence. }
  assert (0 < v <= icx w (EOA u)) as Hv.
  { apply move_icx_Ok in H0 as [[-> _]|(? & ? & _)]; lia. }
  exists T, L, x. split; [done|]. split; [done|]. split; [apply last_token_last, (path_env_even _ _ _ HE)|]. split; [done|].
  split; [unfold icx_registered, var; by rewrite HscN|]. split; [unfold kind_at; rewrite Hsc; cbn; by rewrite K|].
  split; [cbn; by rewrite <- EQ|]. split; [done|]. split; [done|].
  split; [|split; [|split; [|split; [|split]]]].
  - intros E. rewrite <- Er in E. destruct (Hicx E) as [G _]. rewrite (ledger_kind _ _ _ L1) in G. unfold kind_at in *. by rewrite <- S1.
  - intros X. destruct L1 as [_ L1]. specialize (L1 X). specialize (Ls X). rewrite S1 in L1. destruct (w_scores w !! X), (w_scores w1 !! X), (w_scores w' !! X); try done. by eapply ledger_diff_trans.
  - intros X a Ha. rewrite B1, (eff_bal _ _ _ _ _ _ E1), EB by done. unfold credit. repeat case_decide; lia.
  - intros X HX. rewrite B2, (eff_sup _ _ _ _ _ _ E1), ES by done. unfold at_. repeat case_decide; lia.
  - intros C t HC. rewrite B3, (eff_conn _ _ _ _ _ _ E1), EC by done. apply add_virtual_0.
  - intros a. rewrite B4. change (icx w1 a) with (icx w0' a). rewrite I1, I0. unfold at_. repeat case_decide; lia.
Qed.
End env.
