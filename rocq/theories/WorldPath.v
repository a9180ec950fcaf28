(* Conversions along a path in an environment of genuine contracts: what is executed and what was quoted. *)
From Coq Require Import String Ascii ZArith Lia.
From stdpp Require Import base countable list numbers strings gmap relations.
From Verif Require Import Res FormulaConsts FormulaModel Codec CodecProofs World WorldBasics WorldSteps WorldExec WorldSpec WorldInv WorldMoney WorldAuth WorldNet WorldCalls WorldViews WorldConv WorldHop WorldOwner.
Local Open Scope Z_scope.
Local Open Scope M_scope.

(* ------------------------------------------------------------- paths ---- *)
Lemma odd_length p : (List.length (odd_positions p) = List.length p / 2)%nat.
Proof.
  induction p as [|a|a b p IH] using list_ind2; [done|done|].
  cbn [odd_positions List.length]. rewrite IH.
  change (S (S (List.length p))) with (2 + List.length p)%nat. rewrite <- (Nat.mul_1_l 2) at 2. rewrite (Nat.add_comm (1 * 2)), Nat.div_add by done. lia.
Qed.
Lemma list_set_size (l : list addr) : (size (list_to_set l : gset addr) <= List.length l)%nat /\
  (size (list_to_set l : gset addr) = List.length l <-> NoDup l).
Proof.
  induction l as [|a l [IH1 IH2]]; [split; [done|split; [constructor|done]]|]. cbn [list_to_set List.length].
  destruct (decide (a ∈ l)) as [Ha|Ha].
  - assert ({[a]} ∪ list_to_set l = (list_to_set l : gset addr)) as -> by set_solver.
    split; [lia|]. split; [lia|]. intros H. apply NoDup_cons in H as [? _]. done.
  - rewrite size_union by set_solver. rewrite size_singleton. split; [lia|]. rewrite NoDup_cons. split.
    + intros E. split; [done|]. apply IH2. lia.
    + intros [_ E]. apply IH2 in E. lia.
Qed.
Lemma valid_path_iff p : valid_path p = true <->
  (3 <= List.length p <= 21)%nat /\ Nat.odd (List.length p) = true /\ NoDup (odd_positions p).
Proof.
  unfold valid_path. rewrite <- odd_length. rewrite !andb_true_iff, !bool_decide_eq_true.
  rewrite (proj2 (list_set_size (odd_positions p))).
  assert ((List.length p mod 2 = 1)%nat <-> Nat.odd (List.length p) = true) as ->.
  { rewrite <- Nat.bit0_mod. cbn [Nat.testbit]. destruct (Nat.odd _); cbn; split; congruence. }
  split; intros; repeat split; try tauto; lia.
Qed.

(* what the executed conversion at C gives: as [quote], but a virtual source reserve is counted without the amount *)
Definition executed_quote (w : world) (C from to : addr) (amount : Z) : option (Z * Z) :=
  if decide (from = to) then None else
  if decide (active w C) then
    if decide (to = token_of w C) then
      if cn_set (connector_of w C from) && cn_penabled (connector_of w C from) then purchase_quote w C from amount (used w C from amount) else None
    else if decide (from = token_of w C) then
      if cn_set (connector_of w C to) then sale_quote w C to amount else None
    else if cn_set (connector_of w C from) && cn_set (connector_of w C to) && cn_penabled (connector_of w C to)
      then cross_quote w C from to amount (used w C from amount) else None
  else None.
Lemma executed_quote_real w C from to v : cn_venabled (connector_of w C from) = false -> executed_quote w C from to v = quote w C from to v.
Proof. intros H. unfold executed_quote, quote, used. by rewrite H. Qed.

(* along a path; rest is the path after its first token *)
Fixpoint along (q : addr -> addr -> addr -> Z -> option (Z * Z)) (w : world) (from : addr) (rest : list addr) (amount : Z) : option Z :=
  match rest with
  | f :: to :: rest' => match q (owner_of w f) from to amount with Some (x, _) => along q w to rest' x | None => None end
  | _ => Some amount
  end.
Definition path_quote w := along (quote w) w.
Definition path_executed w := along (executed_quote w) w.

Definition genuine_hop (w : world) (N f : addr) : Prop :=
  let C := owner_of w f in
  conv_at w C /\ token_of w C = f /\ is_contract (registry_of w C) = true /\ kind_at w (registry_of w C) = Some KReg /\ owner_of w C <> N.
Fixpoint path_env (w : world) (N : addr) (rest : list addr) : Prop :=
  match rest with
  | f :: to :: rest' => genuine_hop w N f /\ token_at w to /\ addr_ok to /\ path_env w N rest'
  | [] => True
  | _ => False
  end.
Fixpoint last_token (from : addr) (rest : list addr) : addr :=
  match rest with _ :: to :: rest' => last_token to rest' | _ => from end.

Lemma genuine_hop_ledger w w' N f : ledger_only w w' -> genuine_hop w N f -> genuine_hop w' N f.
Proof.
  intros L (A & B & C & D & E). unfold genuine_hop. rewrite (ledger_owner _ _ f L).
  rewrite (ledger_token _ _ _ L), !(ledger_registry _ _ _ L), (ledger_kind _ _ _ L), (ledger_owner _ _ _ L).
  split; [by eapply ledger_conv|]. done.
Qed.
Lemma path_env_ledger w w' N rest : ledger_only w w' -> path_env w N rest -> path_env w' N rest.
Proof.
  intros L. induction rest as [|a|f to rest IH] using list_ind2; [done|done|]. cbn. intros (A & B & C & D).
  split; [by eapply genuine_hop_ledger|]. split; [by eapply ledger_token_at|]. split; [done|]. by apply IH.
Qed.
(* quotes look only at the converter's own balances, its token's supply, its connectors and settings *)
Lemma quote_frame w w' C from to v : ledger_only w w' -> (forall t, connector_of w' C t = connector_of w C t) ->
  supply_of w' (token_of w C) = supply_of w (token_of w C) -> (forall X, balance_of w' X C = balance_of w X C) ->
  executed_quote w' C from to v = executed_quote w C from to v /\ quote w' C from to v = quote w C from to v.
Proof.
  intros L HC HS HB.
  assert (forall t, reserve w' C t = reserve w C t) as HR by (intros t; unfold reserve; by rewrite HC, HB).
  unfold executed_quote, quote, purchase_quote, sale_quote, cross_quote, used.
  rewrite !(ledger_token _ _ _ L), !(ledger_fee _ _ _ L), !HC, !HS, !HR.
  destruct (decide (from = to)); [done|].
  assert (active w' C <-> active w C) as Ha by (by apply ledger_active).
  destruct (decide (active w' C)), (decide (active w C)); try tauto; done.
Qed.
Lemma along_frame q q' w w' N rest : ledger_only w w' -> path_env w N rest ->
  (forall f, f ∈ odd_positions (zero_score :: rest) -> forall from to v, q' (owner_of w f) from to v = q (owner_of w f) from to v) ->
  forall from v, along q' w' from rest v = along q w from rest v.
Proof.
  intros L. induction rest as [|a|f to rest IH] using list_ind2; [done|done|]. cbn [along path_env].
  intros (A & B & C & D) H from v. rewrite (ledger_owner _ _ _ L).
  assert (forall f', f' ∈ f :: odd_positions (zero_score :: rest) -> f' ∈ odd_positions (zero_score :: f :: to :: rest)) as Hsub.
  { intros f'. cbn [odd_positions]. destruct rest; cbn [odd_positions]; done. }
  rewrite H; [|apply Hsub; left]. destruct (q _ _ _ _) as [[x fee]|]; [|done]. apply IH; [done|]. intros f' Hf'. apply H, Hsub. by right.
Qed.

Lemma credit_ne t a x X b : b <> a -> credit t a x X b = 0.
Proof. intros H. unfold credit. rewrite (decide_False (P := b = a)) by done. by destruct (decide (X = t)). Qed.
Lemma trade_balances_N N C F T to v x X : C <> N -> trade_balances N C F T to v x X N = credit T N (- v) X N + credit to N x X N.
Proof.
  intros H. unfold trade_balances. rewrite !(credit_ne _ C) by done. destruct (decide (T = F)), (decide (to = F)); lia.
Qed.
Lemma trade_balances_other N C F T to v x X a : a <> N -> a <> C -> trade_balances N C F T to v x X a = 0.
Proof. intros H1 H2. unfold trade_balances. rewrite !credit_ne by done. destruct (decide (T = F)), (decide (to = F)); lia. Qed.
Lemma credit_ne1 t a x X b : X <> t -> credit t a x X b = 0.
Proof. intros H. unfold credit. by rewrite (decide_False (P := X = t)). Qed.
Lemma trade_virtual_other w C F T to v x X t : X <> C -> trade_virtual w C F T to v x X t = 0.
Proof. intros H. unfold trade_virtual. rewrite !credit_ne1 by done. destruct (decide (T = F)), (decide (to = F)); lia. Qed.
Lemma credit_eq t a x : credit t a x t a = x.
Proof. unfold credit. by rewrite !decide_True. Qed.

Section path.
Variable adv : adversary.
Variable N : addr.
Hypothesis HN1 : is_contract N = true.

Lemma hop_request to j : addr_ok to -> conv_request (hop_data to j) = match json_int j with Some z => Some (to, z) | None => None end.
Proof. intros H. unfold conv_request, hop_data. rewrite lookup_insert, lookup_insert_ne, lookup_insert by done. by rewrite addr_text_roundtrip. Qed.

Lemma hop_executed f ro T F to v j w r w' : token_at w T -> genuine_hop w N F -> kind_at w N = Some KNet -> token_at w to -> addr_ok to ->
  let C := owner_of w F in
  exec adv f ro N T 0 (MTransfer C v (Some (hop_data to j))) w = Ok (r, w') ->
  exists z x fee, 0 < v <= balance_of w T N /\ json_int j = Some z /\ 0 < z <= x /\ T <> to /\ executed_quote w C T to v = Some (x, fee) /\
    conversions_enabled w C = true /\ registered w (registry_of w C) "Network" = N /\
    eff w w' (trade_balances N C F T to v x) (trade_supply F T to v x) (trade_virtual w C F T to v x)
      ((T, EvTransfer N C v (hop_data to j)) :: trade_events w' N C F T to v x fee).
Proof.
  intros HT (HC & HF & HR1 & HR2 & Ho) HN2 Hto Hok C H. fold C in HC, HF, HR1, HR2, Ho.
  eapply (hop adv f ro N T C v) in H; [|done|done|done|done|done|done|done|].
  - rewrite HF in H. destruct H as (Hv & _ & Hreg & Hen & Hact & to' & min & x & fee & Hreq & Hmin & Hne & Hq & E).
    rewrite hop_request in Hreq by done. destruct (json_int j) as [z|]; [|done]. injection Hreq as <- <-.
    exists z, x, fee. do 4 (split; [done|]). split; [|done]. unfold executed_quote. rewrite HF.
    rewrite (decide_False (P := T = to)) by done. rewrite (decide_True (P := active w C)) by done.
    destruct (decide (to = F)); [|destruct (decide (T = F))]; unfold is_connector in Hq.
    + by destruct Hq as (-> & -> & Hq).
    + by destruct Hq as (-> & Hq & _).
    + by destruct Hq as (-> & -> & -> & Hq & _).
  - intros to' min Hr. rewrite hop_request in Hr by done. destruct (json_int j); [|done]. by injection Hr as <- <-.
Qed.

Lemma balance_answer f ro s T a w r w' : token_at w T -> exec adv f ro s T 0 (MBalanceOf a) w = Ok (r, w') -> r = RInt (balance_of w T a) /\ w' = w.
Proof. intros [H1 H2]. eapply answers_inv. by apply token_answers. Qed.
Lemma owner_answer f ro s F w r w' : is_contract F = true -> kind_at w F = Some KFlex -> exec adv f ro s F 0 MGetOwner w = Ok (r, w') -> r = RAddr (owner_of w F) /\ w' = w.
Proof. intros H1 H2. apply answers_inv. exact (proj1 (owned_answers adv w F H1 (flex_is_owned _ _ H2))). Qed.

Definition path_effect (w w' : world) (from to : addr) (p : list addr) (amount x : Z) : Prop :=
  ledger_only w w' /\
  (forall X, balance_of w' X N = balance_of w X N + credit from N (- amount) X N + credit to N x X N) /\
  (forall X a, a <> N -> a ∉ converters w p -> balance_of w' X a = balance_of w X a) /\
  (forall X, X ∉ odd_positions p -> supply_of w' X = supply_of w X) /\
  (forall C t, C ∉ converters w p -> connector_of w' C t = connector_of w C t).

Lemma path_run f c : c_self c = N -> forall rest from amount min w to x w', kind_at w N = Some KNet -> token_at w from ->
  path_env w N rest -> NoDup (odd_positions (from :: rest)) ->
  convert_by_path (exec adv f) c from rest amount min w = Ok ((to, x), w') ->
  path_executed w from rest amount = Some x /\ to = last_token from rest /\ token_at w to /\
  path_effect w w' from to (from :: rest) amount x /\
  ((1 < List.length rest)%nat -> Nat.even (List.length rest) = true -> 0 < amount <= balance_of w from N /\ exists z, json_int min = Some z /\ 0 < z <= x).
Proof.
  intros HcN. refine (list_ind2 _ _ _ _).
  - intros from amount min w to x w' HN2 HT HE HD H. cbn in H. apply ret_Ok in H as [H ->]. injection H as -> ->.
    do 3 (split; [done|]). split; [|cbn; lia]. unfold path_effect. split; [apply ledger_refl|].
    split; [|done]. intros X. unfold credit. repeat case_decide; lia.
  - intros a from amount min w to x w' HN2 HT HE HD H. cbn in H. apply ret_Ok in H as [H ->]. injection H as -> ->.
    do 3 (split; [done|]). split; [|cbn; lia]. unfold path_effect. split; [apply ledger_refl|].
    split; [|done]. intros X. unfold credit. repeat case_decide; lia.
  - intros F to rest IH from amount min w to' x w' HN2 HT (Hh & Hto & Hok & HE) HD H.
    cbn [convert_by_path] in H. unfold ecall in H. rewrite HcN in H.
    pose proof Hh as (HC & HF & HR1 & HR2 & Ho). pose proof HC as (HC1 & HC2 & HF1 & HF2). rewrite HF in HF1, HF2.
    apply bind_Ok in H as (r & w0 & H0 & H). apply owner_answer in H0 as [-> ->]; [|done|done].
    apply bind_Ok in H as (C & w0 & H0 & H). cbn in H0. apply ret_Ok in H0 as [-> ->].
    set (C := owner_of w F) in *.
    apply bind_Ok in H as (r & w0 & H0 & H). apply balance_answer in H0 as [-> ->]; [|done].
    apply bind_Ok in H as (before & w0 & H0 & H). cbn in H0. apply ret_Ok in H0 as [-> ->].
    set (j := match rest with [] => min | _ => JInt 1 end) in H.
    apply bind_Ok in H as (r & w1 & H1 & H).
    destruct (hop_executed _ _ _ _ _ _ _ _ _ _ HT Hh HN2 Hto Hok H1) as (z & y & fee & Hv & Hj & Hz & Hne & Hq & _ & _ & E1). fold C in Hq, E1.
    pose proof (eff_ledger _ _ _ _ _ _ E1) as L1.
    apply bind_Ok in H as (r1 & w2 & H2 & H). assert (token_at w1 to) as Hto1 by (by eapply ledger_token_at).
    apply balance_answer in H2 as [-> ->]; [|done].
    apply bind_Ok in H as (after & w2 & H2 & H). cbn in H2. apply ret_Ok in H2 as [-> ->].
    assert (C <> N) as HCN by (intros E; congruence).
    assert (balance_of w1 to N - balance_of w to N = y) as Ey.
    { rewrite (eff_bal _ _ _ _ _ _ E1), trade_balances_N, credit_eq, credit_ne1 by done. lia. }
    rewrite Ey in H.
    assert (odd_positions (from :: F :: to :: rest) = F :: odd_positions (to :: rest)) as Eodd by done.
    rewrite Eodd in HD. apply NoDup_cons in HD as [HD1 HD2].
    assert (forall a b : addr, odd_positions (a :: rest) = odd_positions (b :: rest)) as Eodd2 by (by destruct rest).
    (* the converters of the other hops *)
    assert (forall g, g ∈ odd_positions (zero_score :: rest) -> genuine_hop w N g) as Hother.
    { clear - HE. induction rest as [|a|g t rest IH] using list_ind2; [intros g Hg; by apply elem_of_nil in Hg|done|].
      destruct HE as (A & _ & _ & B). intros g' Hg'. cbn [odd_positions] in Hg'. apply elem_of_cons in Hg' as [->|Hg']; [done|].
      apply IH; [done|]. by destruct rest. }
    assert (forall g, g ∈ odd_positions (zero_score :: rest) -> g <> F /\ owner_of w g <> C /\ owner_of w g <> N) as Hdiff.
    { intros g Hg. destruct (Hother _ Hg) as ((_ & G1 & _) & G2 & _). assert (g <> F) as HgF.
      { intros ->. apply HD1. by rewrite (Eodd2 _ zero_score). }
      split; [done|]. split; [|congruence]. intros E. rewrite E in G2. congruence. }
    destruct (IH to y min w1 to' x w') as (Q & El & Ht' & (L2 & B1 & B2 & B3 & B4) & Hm); [by rewrite (ledger_kind _ _ _ L1)|done|by eapply path_env_ledger|done|done|].
    assert (path_executed w1 to rest y = path_executed w to rest y) as EQ.
    { unfold path_executed. eapply along_frame; [exact L1|exact HE|]. intros g Hg fr t0 v0.
      destruct (Hdiff _ Hg) as (D1 & D2 & D3). destruct (Hother _ Hg) as (_ & G2 & _). apply quote_frame; [done|..].
      - intros t. rewrite (eff_conn _ _ _ _ _ _ E1), trade_virtual_other by done. apply add_virtual_0.
      - rewrite G2, (eff_sup _ _ _ _ _ _ E1). unfold trade_supply. rewrite decide_False by done. lia.
      - intros X. rewrite (eff_bal _ _ _ _ _ _ E1), trade_balances_other by done. lia. }
    assert (converters w1 (to :: rest) = converters w (to :: rest)) as Econv.
    { unfold converters. apply map_ext. intros g. by rewrite (ledger_owner _ _ _ L1). }
    rewrite Econv in B2, B4.
    split; [|split; [done|split; [|split]]].
    + unfold path_executed. cbn [along]. fold C. rewrite Hq. fold (path_executed w to rest y). by rewrite <- EQ.
    + destruct Ht' as [G1 G2]. split; [done|]. unfold is_token in *. by rewrite !(ledger_kind _ _ _ L1) in G2.
    + split; [by eapply ledger_trans|]. assert (forall a, a ∉ converters w (from :: F :: to :: rest) -> a <> C /\ a ∉ converters w (to :: rest)) as Hc.
      { intros a. unfold converters. rewrite Eodd. cbn [map]. rewrite not_elem_of_cons. done. }
      split; [|split; [|split]].
      * intros X. rewrite B1, (eff_bal _ _ _ _ _ _ E1), trade_balances_N by done. unfold credit. repeat case_decide; lia.
      * intros X a Ha Hca. apply Hc in Hca as [Hca1 Hca2]. rewrite B2 by done. rewrite (eff_bal _ _ _ _ _ _ E1), trade_balances_other by done. lia.
      * intros X HX. rewrite Eodd in HX. apply not_elem_of_cons in HX as [HX1 HX2]. rewrite B3 by done. rewrite (eff_sup _ _ _ _ _ _ E1).
        unfold trade_supply. rewrite decide_False by done. lia.
      * intros C' t Hca. apply Hc in Hca as [Hca1 Hca2]. rewrite B4 by done. rewrite (eff_conn _ _ _ _ _ _ E1), trade_virtual_other by done. apply add_virtual_0.
    + intros _ Hev. split; [done|]. destruct (decide (1 < List.length rest)%nat) as [Hl|Hl]; [by apply Hm|].
      destruct rest as [|g [|? ?]]; cbn in Hl; [|done|lia].
      cbn in Q. injection Q as <-. by exists z.
Qed.
End path.
