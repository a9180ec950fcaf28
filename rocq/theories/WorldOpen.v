(* Proofs for C69: bystanders cannot close a path. *)
From Coq Require Import String Ascii ZArith Lia.
From stdpp Require Import base countable list numbers strings gmap relations.
From Verif Require Import Res FormulaModel PoolSpec FormulaSequence FormulaPropsProofs Codec World WorldBasics WorldSteps WorldExec WorldSpec WorldInv WorldMoney WorldAuth
  WorldNet WorldOwner WorldPath WorldLive TradingSpec ReadySpec OpenSpec WorldPool WorldReady Properties_Roles.
Local Open Scope Z_scope.

(* only converters have managers *)
Lemma no_manager adv w X k : reachable adv w -> kind_at w X = Some k -> k <> KConv -> manager_of w X = None /\ pending_manager_of w X = None.
Proof.
  intros Hr K Hk. apply kind_at_Some in K as (sc & Hsc & K). unfold manager_of, pending_manager_of. rewrite !(var_sc _ _ _ _ _ Hsc). rewrite <- K in Hk.
  revert Hk. refine (all_P_reachable adv (fun _ sc => s_kind sc <> KConv -> s_manager sc = None /\ s_new_manager sc = None) _ _ w Hr X sc Hsc).
  - intros k' c m sc1 sc' evs _ K1 _ HP Hl Hk. rewrite (lstep_kind _ _ _ _ _ _ Hl) in Hk. specialize (HP Hk).
    revert K1 Hk HP. destruct Hl; intros K1 Hk HP; try exact HP; congruence.
  - intros i n a Ha Hi Hk. destruct i; done.
Qed.

Section step.
Context (adv : adversary) (w : world) (fuel : nat) (t : tx) (r : rv) (w' : world) (Hr : reachable adv w) (E : run_tx adv fuel t w = Ok (r, w')).

Lemma kinds_kept a k : kind_at w a = Some k -> kind_at w' a = Some k.
Proof.
  intros K. apply kind_at_Some in K as (sc & Hsc & K). destruct (ident_tx _ _ _ _ _ _ E _ _ Hsc) as (sc' & Hsc' & I).
  unfold kind_at. rewrite Hsc'. cbn. f_equal. destruct I as [I _ _ _ _ _ _ _]. congruence.
Qed.
Lemma is_token_kept a : is_token w a -> is_token w' a.
Proof. unfold is_token. intros [K|[K|K]]; apply kinds_kept in K; auto. Qed.

Context (N : addr) (p : list addr) (HN : kind_at w N = Some KNet) (Hb : bystander w N p (tx_sender t))
  (Hset : forall C, C ∈ converters w p -> set_up w C).

Lemma settings_of C X : C ∈ converters w p ->
  X = C \/ X = token_of w C \/ X = registry_of w C \/ X ∈ connectors_of w C /\ kind_at w X = Some KFlex -> same_settings w w' X.
Proof.
  intros HC HX. destruct Hb as [Hb' _]. destruct (Hb' C HC) as [O1 O2]. destruct (Hset C HC) as [[[Hc [K [Hf KF]]] [HR KR]] _].
  destruct (O1 X HX) as [S1 S2].
  assert (exists k, kind_at w X = Some k /\ k <> KIrc /\ k <> KAdv) as (k & KX & HO).
  { destruct HX as [->|[->|[->|[_ K']]]]; eexists; (split; [eassumption|split; discriminate]). }
  assert (X = C \/ manager_of w X = None /\ pending_manager_of w X = None) as HM.
  { destruct HX as [->|HX]; [by left|]. right. apply (no_manager adv w X k); [done|done|].
    intros ->. destruct HX as [->|[->|[_ K']]]; congruence. }
  eapply C59_outsiders_cannot_change_settings; [exact Hr|by exists k|exact S1|exact S2|..|exact E]; intros a Ha.
  - destruct HM as [->|[H1 H2]]; [apply O2; by left|congruence].
  - destruct HM as [->|[H1 H2]]; [apply O2; by right|congruence].
Qed.
Lemma settings_net : same_settings w w' N.
Proof.
  destruct Hb as (_ & S1 & S2). assert (manager_of w N = None /\ pending_manager_of w N = None) as [M1 M2] by (by eapply no_manager).
  eapply C59_outsiders_cannot_change_settings; [exact Hr|by exists KNet|exact S1|exact S2|..|exact E]; intros a Ha; congruence.
Qed.

(* all of the path's converters are what they were *)
Definition as_before (w w' : world) (C : addr) : Prop :=
  set_up w' C /\ token_of w' C = token_of w C /\ registry_of w' C = registry_of w C /\ connectors_of w' C = connectors_of w C /\
  (forall x, connector_of w' C x = connector_of w C x) /\ fee_of w' C = fee_of w C /\ conversions_enabled w' C = conversions_enabled w C.
Lemma conv_kept C : C ∈ converters w p -> as_before w w' C /\ network_of w' C = network_of w C /\ owner_of w' (token_of w C) = owner_of w (token_of w C).
Proof.
  intros HC. destruct (outside_tx _ _ _ _ _ _ _ Hr (Hset C HC) (proj1 Hb C HC) E) as (S1 & E1 & E2 & E3 & E4 & _).
  pose proof (settings_of C C HC (or_introl eq_refl)) as SC.
  pose proof (settings_of C _ HC (or_intror (or_intror (or_introl eq_refl)))) as SR.
  pose proof (settings_of C _ HC (or_intror (or_introl eq_refl))) as SF.
  unfold same_settings in SC, SR, SF. split; [|split].
  - split; [exact S1|]. split; [exact E1|]. split; [exact E2|]. split; [exact E3|]. split; [exact E4|]. split; apply SC.
  - unfold network_of. rewrite E2. apply SR.
  - apply SF.
Qed.
Lemma movable_kept C X : C ∈ converters w p -> X = token_of w C \/ X ∈ connectors_of w C -> movable w X -> movable w' X.
Proof.
  intros HC HX HM K'.
  assert (kind_at w X = Some KFlex) as K.
  { assert (is_token w X) as HT.
    { destruct (Hset C HC) as ([[_ [_ [_ KF]]] _] & _ & _ & HT & _). destruct HX as [->|HX]; [by right; right|by apply HT]. }
    destruct HT as [K|[K|K]]; [..|done]; apply kinds_kept in K; congruence. }
  destruct (settings_of C X HC) as (_ & _ & _ & ST & _); [naive_solver|]. rewrite ST. by apply HM.
Qed.

Lemma net_token w0 f : reachable adv w0 -> kind_at w0 f = Some KFlex -> kind_at w0 (owner_of w0 f) = Some KConv -> token_of w0 (owner_of w0 f) = f.
Proof.
  intros Hr0 K KC. destruct (owners_reachable adv w0 Hr0 f) as [[n HE]|[HE|[_ HE]]]; [exists KFlex; split; [done|split; discriminate]|..|done].
  - rewrite HE in KC. destruct (kind_contract adv _ _ _ Hr0 KC) as [Hc _]. done.
  - congruence.
Qed.
Lemma conn_iff w0 C X : reachable adv w0 -> is_connector w0 C X -> X ∈ connectors_of w0 C.
Proof.
  intros Hr0. unfold is_connector, connectors_of, connector_of, var. destruct (w_scores w0 !! C) as [sc|] eqn:Hsc; [|done].
  intros H. destruct (conn_reachable _ _ _ _ Hr0 Hsc) as [_ A _ _ _ _ _ _ _]. apply A. exact H.
Qed.
Lemma trade_tokens w0 C from to : reachable adv w0 -> tradable w0 C from to ->
  (from = token_of w0 C \/ from ∈ connectors_of w0 C) /\ (to = token_of w0 C \/ to ∈ connectors_of w0 C).
Proof.
  intros Hr0 (_ & _ & H). destruct (decide (to = _)) as [->|]; [|destruct (decide (from = _)) as [->|]]; split; auto; right; apply conn_iff; tauto.
Qed.

Lemma path_kept rest : forall from, (forall f, f ∈ odd_positions (from :: rest) -> f ∈ odd_positions p) ->
  genuine_path w (from :: rest) -> open_path w N from rest ->
  genuine_path w' (from :: rest) /\ open_path w' N from rest /\ converters w' (from :: rest) = converters w (from :: rest).
Proof.
  induction rest as [|a|f to rest IH] using list_ind2; intros from Hp HG HO.
  - cbn in *. split; [by apply is_token_kept|done].
  - cbn in HG. naive_solver.
  - cbn [genuine_path] in HG. destruct HG as (G1 & G2 & G3 & G4 & G5). cbn [open_path] in HO. cbv zeta in HO.
    destruct HO as (O1 & O2 & O3 & O4 & O5 & O6). set (C := owner_of w f) in *.
    assert (C ∈ converters w p) as HC. { unfold converters. apply elem_of_list_fmap. exists f. split; [done|]. apply Hp. cbn. left. }
    assert (token_of w C = f) as HF by (by apply net_token).
    destruct (conv_kept C HC) as ((S1 & E1 & E2 & E3 & E4 & E5 & E6) & E7 & E8). rewrite HF in E8. fold C in E8.
    destruct (trade_tokens _ _ _ _ Hr O5) as [T1 T2].
    destruct (IH to) as (H1 & H2 & H3); [|done|done|].
    { intros g Hg. apply Hp. cbn. right. destruct rest; [by apply elem_of_nil in Hg|exact Hg]. }
    split; [|split].
    + cbn [genuine_path]. rewrite E8, E2. split; [by apply is_token_kept|]. do 3 (split; [by apply kinds_kept|]). exact H1.
    + cbn [open_path]. cbv zeta. rewrite E8. split; [by apply (movable_kept C)|]. split; [by apply (movable_kept C)|].
      rewrite E7, E6. do 2 (split; [done|]). split; [|exact H2].
      destruct O5 as (D1 & D2 & D3). split; [done|]. split; [apply S1|]. rewrite E1. unfold is_connector in *.
      destruct (decide _); [by rewrite !E4|]. destruct (decide _); by rewrite !E4.
    + unfold converters in *. cbn [odd_positions map]. rewrite E8. f_equal. destruct rest; exact H3.
Qed.
Lemma payable_kept L : payable w N L -> movable w' L -> payable w' N L.
Proof.
  intros HP HM. unfold payable in *. pose proof settings_net as SN. unfold same_settings in SN.
  replace (icx_registered w' N L) with (icx_registered w N L) by (symmetry; apply SN).
  destruct (icx_registered w N L); [by apply kinds_kept|done].
Qed.
End step.

Lemma open_last w N rest : forall from L, (2 < List.length (from :: rest))%nat -> Nat.odd (List.length (from :: rest)) = true -> last (from :: rest) = Some L -> open_path w N from rest -> movable w L.
Proof.
  induction rest as [|a|f to rest IH] using list_ind2; intros from L Hl Ho HL HO; [cbn in Hl; lia|cbn in Hl; lia|].
  cbn [open_path] in HO. cbv zeta in HO. destruct HO as (O1 & O2 & O3 & O4 & O5 & O6).
  destruct rest as [|g [|h rest]].
  - cbn in HL. by injection HL as <-.
  - cbn in Ho. done.
  - apply (IH to L); [cbn; lia|exact Ho|exact HL|exact O6].
Qed.

(* after any history of bystanders *)
Theorem path_stays adv w N T rest L w' : reachable adv w -> kind_at w N = Some KNet -> (2 < List.length (T :: rest))%nat -> Nat.odd (List.length (T :: rest)) = true ->
  genuine_path w (T :: rest) -> (forall C, C ∈ converters w (T :: rest) -> set_up w C) -> last (T :: rest) = Some L ->
  open_path w N T rest -> payable w N L -> bystanders_history adv N (T :: rest) w w' ->
  reachable adv w' /\ kind_at w' N = Some KNet /\ genuine_path w' (T :: rest) /\ open_path w' N T rest /\ payable w' N L /\
  converters w' (T :: rest) = converters w (T :: rest) /\ (forall a k, kind_at w a = Some k -> kind_at w' a = Some k) /\
  (forall X, icx_registered w' N X = icx_registered w N X) /\
  forall C, C ∈ converters w (T :: rest) -> as_before w w' C.
Proof.
  intros Hr HN Hl Ho HG HS HL HO HP H. induction H as [w|w w1 w' (fuel & t & Hb & ->) H IH].
  { do 8 (split; [done|]). intros C HC. split; [by apply HS|done]. }
  assert (reachable adv (apply_tx adv fuel t w)) as Hr1 by (by constructor).
  unfold apply_tx in *. destruct (run_tx adv fuel t w) as [[r w1]|e] eqn:E; [|by apply IH].
  destruct (path_kept adv w fuel t r w1 Hr E N (T :: rest) Hb HS rest T (fun f h => h) HG HO) as (G1 & O1 & C1).
  assert (payable w1 N L) as P1.
  { apply (payable_kept adv w fuel t r w1 Hr E N (T :: rest) HN Hb L HP). exact (open_last w1 N rest T L Hl Ho HL O1). }
  assert (forall C, C ∈ converters w (T :: rest) -> as_before w w1 C) as B1.
  { intros C HC. by destruct (conv_kept adv w fuel t r w1 Hr E N (T :: rest) Hb HS C HC). }
  destruct IH as (A1 & A2 & A3 & A4 & A5 & A6 & A7 & A8 & A9); try done.
  - by eapply kinds_kept.
  - intros C HC. rewrite C1 in HC. by apply B1.
  - do 5 (split; [done|]). split; [congruence|]. split; [intros a k K; by eapply A7, kinds_kept|]. split.
    + intros X. rewrite A8. pose proof (settings_net adv w fuel t r w1 Hr E N (T :: rest) HN Hb) as SN. apply SN.
    + intros C HC. destruct (B1 C HC) as (B2 & B3 & B4 & B5 & B6 & B7 & B8). rewrite C1 in A9.
      destruct (A9 C HC) as (D2 & D3 & D4 & D5 & D6 & D7 & D8). split; [done|]. do 3 (split; [congruence|]).
      split; [intros x; by rewrite D6|]. split; congruence.
Qed.

(* the amounts: without virtual balances whatever the formula gives can be delivered *)
Lemma worth_positive w C from to v x : 0 <= v -> worth w C from to v 0 x ->
  exists y, formula_result w C from to v 0 = Ok y /\ 0 <= x <= y.
Proof. intros Hv (y & H1 & H2 & _). by exists y. Qed.
Lemma worth_deliverable adv w C from to v x : reachable adv w -> set_up w C -> tradable w C from to -> movable w to -> 0 <= v ->
  worth w C from to v 0 x -> deliverable w C from to v x.
Proof.
  intros Hr HS HT HM Hv HW. destruct (worth_positive _ _ _ _ _ _ Hv HW) as (y & HF & Hx).
  destruct (trade_tokens adv w C from to Hr HT) as [T1 T2]. destruct HS as (_ & _ & _ & HV & _).
  unfold deliverable. cbv zeta. unfold formula_result in HF. cbv zeta in HF.
  destruct (decide (to = token_of w C)) as [|Hne]; [done|]. destruct T2 as [|T2]; [done|]. destruct (HV to T2) as [_ V2].
  unfold reserve in *. rewrite V2 in *.
  destruct (decide (from = token_of w C)) as [Hf|Hf].
  - pose proof (sale_value _ _ _ _ _ Hv HF) as (B1 & B2 & _). split; [lia|]. split; [done|].
    destruct (Z.eq_dec x (balance_of w to C)) as [Hx'|]; [|left; lia]. right. split; [done|]. apply B2. lia.
  - pose proof (cross_value _ _ _ _ _ _ Hv HF) as (B1 & _). split; [lia|]. split; [done|]. lia.
Qed.
Lemma lowered_worth adv w C from to v x : reachable adv w -> set_up w C -> tradable w C from to ->
  worth w C from to v (lowered w C from v) x <-> worth w C from to v 0 x.
Proof.
  intros Hr HS HT. destruct (trade_tokens adv w C from to Hr HT) as [T1 T2]. destruct HS as (_ & _ & _ & HV & _). destruct HT as (Hne & _).
  unfold worth, lowered. destruct T1 as [T1|T1]; [|by rewrite (proj2 (HV from T1))].
  assert (forall adj, formula_result w C from to v adj = formula_result w C from to v 0) as HF; [|by rewrite (HF (if cn_venabled (connector_of w C from) then v else 0))].
  intros adj. unfold formula_result. cbv zeta. destruct (decide (to = token_of w C)); [congruence|]. by destruct (decide (from = token_of w C)).
Qed.
Lemma passable_earns adv w N z rest : reachable adv w -> forall from v, (forall f, f ∈ odd_positions (from :: rest) -> set_up w (owner_of w f)) ->
  open_path w N from rest -> 0 <= v -> passable w N from rest v z <-> earns w from rest v z.
Proof.
  intros Hr. induction rest as [|a|f to rest IH] using list_ind2; intros from v HS HO Hv; [done|done|].
  cbn [open_path] in HO. cbv zeta in HO. destruct HO as (O1 & O2 & O3 & O4 & O5 & O6).
  assert (set_up w (owner_of w f)) as HC by (apply HS; cbn; left).
  assert (forall g, g ∈ odd_positions (to :: rest) -> set_up w (owner_of w g)) as HS'.
  { intros g Hg. apply HS. cbn. right. destruct rest; [by apply elem_of_nil in Hg|exact Hg]. }
  cbn [passable earns]. cbv zeta. split.
  - intros (_ & _ & _ & _ & x & W & _ & G & H). exists x. apply (lowered_worth adv) in W; [|done..]. split; [done|]. split; [done|].
    apply IH; [done|done| |done]. destruct (worth_positive _ _ _ _ _ _ Hv W) as (y & _ & Hx); lia.
  - intros (x & W & G & H). do 4 (split; [done|]). exists x. split; [by eapply lowered_worth|]. split; [by eapply worth_deliverable|]. split; [done|].
    apply IH; [done|done| |done]. destruct (worth_positive _ _ _ _ _ _ Hv W) as (y & _ & Hx); lia.
Qed.

(* the history seen by one converter of the path *)
Lemma bystanders_outside adv w N p C w' : reachable adv w -> kind_at w N = Some KNet -> (forall X, X ∈ converters w p -> set_up w X) -> C ∈ converters w p ->
  genuine_path w p -> bystanders_history adv N p w w' -> outside_history adv C w w'.
Proof.
  intros Hr HN HS HC HG H. induction H as [w|w w1 w' (fuel & t & Hb & ->) H IH]; [constructor|].
  assert (reachable adv (apply_tx adv fuel t w)) as Hr1 by (by constructor).
  assert (exists fuel0 t0, outsider w C (tx_sender t0) /\ apply_tx adv fuel t w = apply_tx adv fuel0 t0 w) as Hstep.
  { exists fuel, t. split; [by apply Hb|done]. }
  eapply rtc_l; [exact Hstep|]. clear Hstep. unfold apply_tx in *. destruct (run_tx adv fuel t w) as [[r w1]|e] eqn:E; [|by apply IH].
  assert (genuine_path w1 p /\ converters w1 p = converters w p) as [G1 C1].
  { clear IH H HC. destruct Hb as [Hb1 Hb2]. assert (forall f, f ∈ odd_positions p -> f ∈ odd_positions p) as Hp by done. revert Hp.
    assert (forall q, (forall f, f ∈ odd_positions q -> f ∈ odd_positions p) -> genuine_path w q -> genuine_path w1 q /\ converters w1 q = converters w q) as K; [|by intros Hp; apply K].
    intros q. induction q as [|a|a f q IH] using list_ind2; intros Hp HG'.
    - done.
    - cbn in *. split; [by eapply is_token_kept|done].
    - cbn [genuine_path] in HG'. destruct HG' as (G1 & G2 & G3 & G4 & G5).
      assert (owner_of w f ∈ converters w p) as HC. { unfold converters. apply elem_of_list_fmap. exists f. split; [done|]. apply Hp. cbn. left. }
      assert (token_of w (owner_of w f) = f) as HF by (by eapply net_token).
      destruct (conv_kept adv w fuel t r w1 Hr E N p (conj Hb1 Hb2) HS _ HC) as ((S1 & E1 & E2 & E3 & E4 & E5 & E6) & E7 & E8). rewrite HF in E8.
      destruct IH as [H1 H2]; [|done|].
      { intros g Hg. apply Hp. cbn. right. exact Hg. }
      split; [|unfold converters in *; cbn [odd_positions map]; by rewrite E8, H2].
      cbn [genuine_path]. rewrite E8, E2. split; [by eapply is_token_kept|]. do 3 (split; [by eapply kinds_kept|]). exact H1. }
  apply IH; [done|by eapply kinds_kept| | |done].
  - intros X HX. rewrite C1 in HX. by destruct (conv_kept adv w fuel t r w1 Hr E N p Hb HS X HX) as [[S _] _].
  - by rewrite C1.
Qed.
Lemma trades_supply {I} conns (wt : I -> Z) n p q : trades conns wt n p q -> 0 < supply q -> 0 < supply p.
Proof.
  induction 1 as [p q Hs _|n p q q' _ IH HT|n p q q' _ IH HT]; intros Hq; [lia|..]; apply IH.
  - by eapply trade_supply.
  - by eapply gift_supply.
Qed.
(* the connectors of an active converter stay funded as long as there is supply *)
Lemma stays_funded adv w C w' T : reachable adv w -> set_up w C -> outside_history adv C w w' ->
  (forall t, t ∈ connectors_of w C -> 0 < balance_of w t C) -> 0 < supply_of w' (token_of w C) -> T ∈ connectors_of w C -> 0 < balance_of w' T C.
Proof.
  intros Hr HS H HB Hs HT. destruct (outside_trades _ _ _ _ Hr HS H) as (_ & E1 & E2 & _ & _ & HTr).
  assert (0 < supply (pool_of w' C)) as Hs' by (cbn; by rewrite E1).
  assert (NoDup (connectors_of w C) /\ forall i, In i (connectors_of w C) -> 1 <= cn_weight (connector_of w C i) <= 1000000) as [Hnd Hw].
  { destruct HS as [[[_ [K _]] _] _]. unfold kind_at in K. destruct (w_scores w !! C) as [sc|] eqn:Hsc; [|done].
    destruct (conn_reachable _ _ _ _ Hr Hsc) as [A1 A2 A3 _ _ _ _ _ _]. unfold connectors_of, connector_of, var. rewrite Hsc.
    split; [done|]. intros i Hi. apply elem_of_list_In, A2, A3 in Hi. unfold conn in Hi. lia. }
  destruct (trades_keep (connectors_of w C) (fun x => cn_weight (connector_of w C x))
    (proj1 (NoDup_ListNoDup _) Hnd) Hw _ _ _ HTr) as [[_ HF] _]; [|exact Hs'|].
  - split; [by eapply trades_supply|]. intros i Hi. cbn. apply elem_of_list_In in Hi. rewrite decide_True by done. by apply HB.
  - specialize (HF T (proj1 (elem_of_list_In _ _) HT)). cbn in HF. by rewrite E2, decide_True in HF.
Qed.
