(* Invariants of single contracts in all histories (C13, C27, C28, C53) and of the address space. *)
From Coq Require Import String Ascii ZArith Lia.
From stdpp Require Import base countable list numbers strings gmap relations.
From Verif Require Import Res FormulaConsts FormulaModel Codec World WorldBasics WorldSteps WorldExec WorldSpec.
Local Open Scope Z_scope.

(* ------------------------------------------------------------- sums of maps ---- *)
Definition total (m : gmap addr Z) : Z := map_fold (fun _ v acc => v + acc) 0 m.
Lemma total_empty : total ∅ = 0.
Proof. apply map_fold_empty. Qed.
Lemma total_insert_new m a v : m !! a = None -> total (<[a := v]> m) = v + total m.
Proof. intros H. unfold total. apply map_fold_insert_L; [intros; lia|done]. Qed.
Lemma total_insert m a v : total (<[a := v]> m) = total m - default 0 (m !! a) + v.
Proof.
  destruct (m !! a) as [x|] eqn:E; cbn.
  - assert (total m = x + total (delete a m)) as ->.
    { rewrite <- (insert_delete m a x E) at 1. apply total_insert_new, lookup_delete. }
    rewrite <- insert_delete_insert, total_insert_new by apply lookup_delete. lia.
  - rewrite total_insert_new by done. lia.
Qed.
Lemma total_list m : total m = sum_Z (map snd (map_to_list m)).
Proof.
  unfold total, map_fold. cbn. induction (map_to_list m) as [|[k v] l IH]; [done|]. cbn. by rewrite IH.
Qed.

(* ------------------------------------------------- invariants of one contract ---- *)
Section local_inv.
Variable adv : adversary.
Variable P : addr -> score -> Prop.
Hypothesis P_step : forall k c m sc sc' evs,
  is_contract (c_self c) = true -> s_kind sc = k -> 0 <= c_value c ->
  P (c_self c) sc -> lstep k c m sc sc' evs -> P (c_self c) sc'.
Hypothesis P_init : forall i n a, a <> 0%N -> init_ok i -> P (SCORE a) (init_score i (EOA n) (SCORE a)).1.

Definition all_P (w : world) : Prop := forall a sc, w_scores w !! a = Some sc -> P a sc.

Lemma all_P_upd a sc evs w : all_P w -> P a sc -> all_P (wupd a sc evs w).
Proof.
  intros H1 H2 b sc' Hb. unfold wupd in Hb. cbn in Hb.
  destruct (decide (b = a)) as [->|Hne].
  - rewrite lookup_insert in Hb. by injection Hb as <-.
  - rewrite lookup_insert_ne in Hb by done. by apply H1.
Qed.

Lemma all_P_exec fuel ro s t v m w r w' : all_P w -> exec adv fuel ro s t v m w = Ok (r, w') -> all_P w'.
Proof.
  intros HP H. revert HP.
  eapply (exec_ind adv (fun _ => True) (fun _ _ _ _ => True) (fun w w' => all_P w -> all_P w')); try done; eauto.
  - intros s0 t0 v0 m0 w0 w0' _ _ Hm HP. unfold all_P. by rewrite (move_icx_scores _ _ _ _ _ _ Hm).
  - intros w0 k c m0 sc sc' evs _ _ Hc Hsc Hk _ Hv Hl HP. apply all_P_upd; [done|].
    eapply P_step; eauto.
Qed.
Lemma all_P_tx fuel t w r w' : all_P w -> run_tx adv fuel t w = Ok (r, w') -> all_P w'.
Proof.
  intros HP H. revert HP.
  eapply (tx_ind adv (fun _ => True) (fun _ _ _ _ => True) (fun w w' => all_P w -> all_P w')); try done; eauto.
  - intros s0 t0 v0 m0 w0 w0' _ _ Hm HP. unfold all_P. by rewrite (move_icx_scores _ _ _ _ _ _ Hm).
  - intros w0 k c m0 sc sc' evs _ _ Hc Hsc Hk _ Hv Hl HP. apply all_P_upd; [done|].
    eapply P_step; eauto.
  - intros w0 n a i _ Ha Hf Hi HP. apply all_P_upd; [done|]. by apply P_init.
  - destruct t; try done. by destruct i as [| | |? ? ? [] ?| | |].
Qed.
Lemma all_P_reachable w : reachable adv w -> all_P w.
Proof.
  apply (reachable_ind adv all_P).
  - intros w0 (H & _) a sc Ha. by rewrite H in Ha.
  - intros fuel t w0 r w1 _ HP H. by eapply all_P_tx.
Qed.
End local_inv.

(* ------------------------------------------------------------- C13: ledgers ---- *)
Definition ledger_ok (sc : score) : Prop := (forall a, 0 <= balance sc a) /\ total (s_bal sc) = s_supply sc.

Lemma balance_add a b v sc : balance (add_bal a v sc) b = balance sc b + (if decide (b = a) then v else 0).
Proof.
  unfold balance at 1, add_bal. cbn. case_decide as E.
  - subst. by rewrite lookup_insert.
  - rewrite lookup_insert_ne by done. unfold balance. lia.
Qed.
Lemma total_add a v sc : total (s_bal (add_bal a v sc)) = total (s_bal sc) + v.
Proof. cbn. rewrite total_insert. unfold balance. lia. Qed.
Lemma balance_set_supply s sc a : balance (set_supply s sc) a = balance sc a. Proof. done. Qed.

Lemma ledger_step k c m sc sc' evs : 0 <= c_value c -> ledger_ok sc -> lstep k c m sc sc' evs -> ledger_ok sc'.
Proof.
  intros Hv [H1 H2] Hl. destruct Hl; try exact (conj H1 H2); split.
  all: try (cbn [s_bal s_supply set_supply]; rewrite ?total_add; cbn [s_supply add_bal set_bal]; lia).
  all: intros a; rewrite ?balance_set_supply, ?balance_add; pose proof (H1 a);
    repeat case_decide; subst; lia.
Qed.
Lemma ledger_blank k : ledger_ok (blank k).
Proof. split; [done|]. apply total_empty. Qed.
Lemma ledger_init_token k n s x e d : 0 <= x -> ledger_ok (init_token k n s x e d).
Proof.
  intros Hx. split.
  - intros a. unfold balance, init_token. cbn. destruct (decide (a = d)) as [->|].
    + by rewrite lookup_singleton.
    + by rewrite lookup_singleton_ne.
  - cbn. rewrite <- insert_empty, total_insert, total_empty, lookup_empty. cbn. lia.
Qed.
Lemma ledger_init i n a : init_ok i -> ledger_ok (init_score i (EOA n) (SCORE a)).1.
Proof.
  destruct i; intros Hi; cbn [init_score fst]; try apply ledger_blank.
  - apply ledger_init_token. cbn in Hi. apply Z.mul_nonneg_nonneg; [lia|]. apply Z.pow_nonneg. lia.
  - apply (ledger_init_token KIcx "ICX Token" "ICXT" 0 18). lia.
  - apply (ledger_init_token KFlex). cbn in Hi. apply Z.mul_nonneg_nonneg; [lia|]. apply Z.pow_nonneg. lia.
Qed.

Theorem ledger_reachable adv w t sc : reachable adv w -> w_scores w !! t = Some sc -> ledger_ok sc.
Proof.
  intros Hr Ht. refine (all_P_reachable adv (fun _ => ledger_ok) _ _ w Hr t sc Ht).
  - intros. by eapply ledger_step.
  - intros. by apply ledger_init.
Qed.

Lemma sum_map_bal (m : gmap addr Z) (l : list (addr * Z)) :
  (forall a v, (a, v) ∈ l -> m !! a = Some v) ->
  sum_Z (map snd l) = sum_Z (map (fun a => default 0 (m !! a)) (map fst l)).
Proof.
  induction l as [|[a v] l IH]; intros H; [done|]. cbn. rewrite (H a v) by set_solver. cbn.
  unfold sum_Z in *. cbn. rewrite IH; [done|]. set_solver.
Qed.
Theorem balances_sum adv w t : reachable adv w ->
  (forall a, 0 <= balance_of w t a) /\
  exists l, NoDup l /\ (forall a, balance_of w t a <> 0 -> a ∈ l) /\ sum_Z (map (balance_of w t) l) = supply_of w t.
Proof.
  intros Hr. unfold balance_of, supply_of, var. destruct (w_scores w !! t) as [sc|] eqn:E.
  - destruct (ledger_reachable _ _ _ _ Hr E) as [H1 H2]. split; [exact H1|].
    exists (map fst (map_to_list (s_bal sc))). split; [apply NoDup_fst_map_to_list|]. split.
    + intros a Ha. destruct (s_bal sc !! a) as [v|] eqn:Ea; [|done].
      apply elem_of_list_fmap. exists (a, v). split; [done|]. by apply elem_of_map_to_list.
    + rewrite <- H2, total_list. symmetry. apply sum_map_bal. intros a v. apply elem_of_map_to_list.
  - split; [done|]. exists []. split; [constructor|]. done.
Qed.
(* no set of accounts holds more than the supply *)
Lemma sum_submseteq (f : addr -> Z) l l' : (forall a, 0 <= f a) -> l ⊆+ l' -> sum_Z (map f l) <= sum_Z (map f l').
Proof.
  intros Hf H. induction H as [|x l1 l2 H IH|x y l|x l1 l2 H IH|l1 l2 l3 H1 IH1 H2 IH2]; unfold sum_Z in *; cbn; try lia.
  specialize (Hf x). lia.
Qed.
Lemma sum_filter (f : addr -> Z) l : sum_Z (map f (filter (fun a => f a <> 0) l)) = sum_Z (map f l).
Proof.
  induction l as [|a l IH]; [done|]. rewrite filter_cons. case_decide as E; cbn; unfold sum_Z in *; rewrite IH; [done|].
  lia.
Qed.
Theorem balances_bounded adv w t l : reachable adv w -> NoDup l -> sum_Z (map (balance_of w t) l) <= supply_of w t.
Proof.
  intros Hr N. destruct (balances_sum adv w t Hr) as (H0 & l' & N' & Hl & <-).
  rewrite <- (sum_filter (balance_of w t) l). apply sum_submseteq; [done|]. apply NoDup_submseteq.
  - by apply NoDup_filter.
  - intros a [Ha _]%elem_of_list_filter. by apply Hl.
Qed.

(* ---------------------------------------------------------- C27: connectors ---- *)
Definition weight_sum (sc : score) : Z := sum_Z (map (fun t => cn_weight (conn sc t)) (s_conn_tokens sc)).
Record conn_ok (self : addr) (sc : score) : Prop := {
  co_nodup : NoDup (s_conn_tokens sc);
  co_set : forall t, cn_set (conn sc t) = true <-> t ∈ s_conn_tokens sc;
  co_weight : forall t, cn_set (conn sc t) = true -> 0 < cn_weight (conn sc t) <= 1000000;
  co_other : forall t, cn_set (conn sc t) = true -> t <> s_token sc /\ t <> self /\ t <> zero_score;
  co_total : s_total_weight sc = weight_sum sc;
  co_bound : s_total_weight sc <= 1000000;
  co_unset : forall t, cn_set (conn sc t) = false -> conn sc t = no_connector;
  co_fee : 0 <= s_fee sc <= s_max_fee sc;
  co_max : s_max_fee sc <= 1000000
}.

Lemma conn_set_conn a b cn sc : conn (set_conn a cn sc) b = if decide (b = a) then cn else conn sc b.
Proof.
  unfold conn, set_conn. cbn. case_decide as E.
  - subst. by rewrite lookup_insert.
  - by rewrite lookup_insert_ne.
Qed.
Lemma weight_sum_ext (f g : addr -> connector) l :
  (forall t, t ∈ l -> cn_weight (f t) = cn_weight (g t)) ->
  sum_Z (map (fun t => cn_weight (f t)) l) = sum_Z (map (fun t => cn_weight (g t)) l).
Proof.
  intros H. induction l as [|a l IH]; [done|]. unfold sum_Z in *. cbn. rewrite H by set_solver.
  rewrite IH; [done|]. set_solver.
Qed.
Lemma sum_app l l' : sum_Z (l ++ l') = sum_Z l + sum_Z l'.
Proof. unfold sum_Z. induction l; cbn; [done|]. lia. Qed.
(* changing one entry *)
Lemma weight_sum_upd sc a cn l : NoDup l -> a ∈ l ->
  sum_Z (map (fun t => cn_weight (if decide (t = a) then cn else conn sc t)) l) =
  sum_Z (map (fun t => cn_weight (conn sc t)) l) - cn_weight (conn sc a) + cn_weight cn.
Proof.
  intros N Ha. induction l as [|b l IH]; [by apply elem_of_nil in Ha|].
  apply NoDup_cons in N as [Nb N]. unfold sum_Z in *. cbn. destruct (decide (b = a)) as [->|Hne].
  - assert (forall l', a ∉ l' -> foldr Z.add 0 (map (fun t => cn_weight (if decide (t = a) then cn else conn sc t)) l') =
      foldr Z.add 0 (map (fun t => cn_weight (conn sc t)) l')) as E.
    { clear. induction l' as [|x l' IH]; intros H; [done|]. cbn. rewrite decide_False by set_solver.
      rewrite IH; [done|]. set_solver. }
    rewrite E by done. lia.
  - rewrite IH; [lia|done|set_solver].
Qed.

(* replacing the entry of a set connector *)
Lemma conn_ok_replace self sc a cn tw : conn_ok self sc -> cn_set (conn sc a) = true -> cn_set cn = true ->
  0 < cn_weight cn <= 1000000 -> tw = s_total_weight sc - cn_weight (conn sc a) + cn_weight cn -> tw <= 1000000 ->
  conn_ok self (set_total_weight tw (set_conn a cn sc)).
Proof.
  intros [C1 C2 C3 C4 C5 C6 C7 C8 C9] Ha Hcn Hw -> Htw. 
  assert (forall t, conn (set_total_weight (s_total_weight sc - cn_weight (conn sc a) + cn_weight cn) (set_conn a cn sc)) t
                    = if decide (t = a) then cn else conn sc t) as E by (intros; apply conn_set_conn).
  split; try done.
  - intros t. rewrite E. cbn. rewrite <- C2. case_decide; subst; [by split|done].
  - intros t. rewrite E. case_decide; subst; [done|apply C3].
  - intros t. rewrite E. cbn. case_decide; subst; [intros _; by apply C4|apply C4].
  - unfold weight_sum. cbn [s_conn_tokens set_total_weight set_conn set_connectors s_total_weight].
    rewrite (map_ext _ (fun t => cn_weight (if decide (t = a) then cn else conn sc t))) by (intros; by rewrite E).
    rewrite weight_sum_upd; [|done|by apply C2]. unfold weight_sum in C5. lia.
  - intros t. rewrite E. case_decide; subst; [congruence|apply C7].
Qed.
Lemma set_total_weight_same sc : set_total_weight (s_total_weight sc) sc = sc.
Proof. by destruct sc. Qed.

Lemma conn_step k c m sc sc' evs : is_contract (c_self c) = true ->
  conn_ok (c_self c) sc -> lstep k c m sc sc' evs -> conn_ok (c_self c) sc'.
Proof.
  intros Hself C Hl. destruct Hl; try exact C; try (destruct C; by split).
  - (* virtual balance *)
    assert (cn_set (conn sc t) = true) as Hset.
    { destruct (cn_set (conn sc t)) eqn:E; [done|]. rewrite (co_unset _ _ C t E) in H1. done. }
    unfold set_virtual. set (cn := Connector z (cn_weight (conn sc t)) (cn_venabled (conn sc t)) (cn_penabled (conn sc t)) (cn_set (conn sc t))).
    pose proof (conn_ok_replace _ sc t cn (s_total_weight sc) C Hset) as R.
    change (set_total_weight (s_total_weight sc) (set_conn t cn sc)) with
      (set_total_weight (s_total_weight (set_conn t cn sc)) (set_conn t cn sc)) in R.
    rewrite set_total_weight_same in R. apply R; cbn; [done|by apply C|lia|apply C].
  - (* add *)
    pose proof (co_unset _ _ C t H4) as Hun. destruct C as [C1 C2 C3 C4 C5 C6 C7 C8 C9].
    set (cn := Connector 0 weight ve true true).
    assert (forall b, conn (set_total_weight (s_total_weight sc + weight) (set_conn_tokens (s_conn_tokens sc ++ [t])
        (set_conn t cn sc))) b = if decide (b = t) then cn else conn sc b) as E by (intros; apply conn_set_conn).
    assert (t ∉ s_conn_tokens sc) as Hnew. { intros Ht. apply C2 in Ht. congruence. }
    split; cbn [s_conn_tokens set_total_weight set_conn_tokens s_token s_total_weight]; try done.
    + apply NoDup_app. split; [done|]. split; [|apply NoDup_singleton]. intros x Hx ->%elem_of_list_singleton. done.
    + intros b. rewrite E, elem_of_app, elem_of_list_singleton, <- C2. case_decide; subst; cbn; tauto.
    + intros b. rewrite E. case_decide; subst; cbn; [lia|apply C3].
    + intros b. rewrite E. case_decide; subst; cbn; [done|apply C4].
    + unfold weight_sum. cbn [s_conn_tokens set_total_weight set_conn_tokens].
      rewrite (map_ext _ (fun b => cn_weight (if decide (b = t) then cn else conn sc b))) by (intros; by rewrite E).
      rewrite map_app, sum_app. cbn [map sum_Z foldr]. rewrite decide_True by done. cbn [cn_weight cn].
      rewrite C5. unfold weight_sum.
      rewrite (weight_sum_ext (fun b => if decide (b = t) then cn else conn sc b) (conn sc)); [cbn; lia|].
      intros b Hb. rewrite decide_False; [done|]. by intros ->.
    + intros b. rewrite E. case_decide; subst; cbn; [done|apply C7].
  - (* update *)
    set (cn := Connector virtual weight ve (cn_penabled (conn sc t)) true).
    exact (conn_ok_replace _ sc t cn _ C H2 eq_refl H3 eq_refl H4).
  - (* disable *)
    set (cn := Connector (cn_virtual (conn sc t)) (cn_weight (conn sc t)) (cn_venabled (conn sc t)) (negb b) true).
    pose proof (conn_ok_replace _ sc t cn (s_total_weight sc) C H2) as R.
    change (set_total_weight (s_total_weight sc) (set_conn t cn sc)) with
      (set_total_weight (s_total_weight (set_conn t cn sc)) (set_conn t cn sc)) in R.
    rewrite set_total_weight_same in R. apply R; cbn; [done|by apply C|lia|apply C].
Qed.
Lemma conn_blank self k : conn_ok self (blank k).
Proof. split; try done; cbn; try lia. constructor. intros t. split; [done|]. intros H. by apply elem_of_nil in H. Qed.
Lemma conn_init i n a : a <> 0%N -> init_ok i -> conn_ok (SCORE a) (init_score i (EOA n) (SCORE a)).1.
Proof.
  intros Ha. destruct i; intros Hi; cbn [init_score fst]; destruct (conn_blank (SCORE a) KAdv); split; try done.
  all: cbn in Hi |- *; lia.
Qed.
Theorem conn_reachable adv w c sc : reachable adv w -> w_scores w !! c = Some sc -> conn_ok c sc.
Proof.
  intros Hr Ht. refine (all_P_reachable adv conn_ok _ _ w Hr c sc Ht).
  - intros. by eapply conn_step.
  - intros. by apply conn_init.
Qed.

(* ------------------------------------------------------------ C53: registry ---- *)
Definition addrs_ok (sc : score) : Prop := forall n a, s_addrs sc !! n = Some a ->
  n ∈ score_keys /\ a <> zero_score /\ is_contract a = true.
Theorem addrs_reachable adv w r sc : reachable adv w -> w_scores w !! r = Some sc -> addrs_ok sc.
Proof.
  intros Hr Ht. refine (all_P_reachable adv (fun _ => addrs_ok) _ _ w Hr r sc Ht).
  - intros k c m sc1 sc' evs _ _ _ HP Hl. destruct Hl; try exact HP.
    + intros n' a' Hn. cbn in Hn. destruct (decide (n' = n)) as [->|Hne].
      * rewrite lookup_insert in Hn. by injection Hn as <-.
      * rewrite lookup_insert_ne in Hn by done. by apply HP.
    + intros n' a' Hn. cbn in Hn. apply lookup_delete_Some in Hn as [_ Hn]. by apply HP.
  - intros i n a Ha Hi. destruct i; try done. intros n' a' H. cbn in H. apply lookup_singleton_Some in H as [<- <-].
    split; [set_solver|]. split; [|done]. unfold zero_score. congruence.
Qed.

(* -------------------------------------------- C54: what a contract never changes ---- *)
Section local_rel.
Variable adv : adversary.
Variable Q : score -> score -> Prop.
Hypothesis Q_refl : forall sc, Q sc sc.
Hypothesis Q_trans : forall a b c, Q a b -> Q b c -> Q a c.
Hypothesis Q_step : forall c m sc sc' evs, lstep (s_kind sc) c m sc sc' evs -> Q sc sc'.
Definition all_Q (w w' : world) : Prop := forall a sc, w_scores w !! a = Some sc ->
  exists sc', w_scores w' !! a = Some sc' /\ Q sc sc'.
Lemma all_Q_refl w : all_Q w w.
Proof. intros a sc H. eauto. Qed.
Lemma all_Q_trans w1 w2 w3 : all_Q w1 w2 -> all_Q w2 w3 -> all_Q w1 w3.
Proof. intros H1 H2 a sc Ha. destruct (H1 _ _ Ha) as (sc1 & Ha1 & Q1). destruct (H2 _ _ Ha1) as (sc2 & Ha2 & Q2). eauto. Qed.
Lemma all_Q_icx s t v w w' u : move_icx s t v w = Ok (u, w') -> all_Q w w'.
Proof. intros H a sc Ha. rewrite (move_icx_scores _ _ _ _ _ _ H). eauto. Qed.
Lemma all_Q_upd c m sc sc' evs w : w_scores w !! c_self c = Some sc -> lstep (s_kind sc) c m sc sc' evs -> all_Q w (wupd (c_self c) sc' evs w).
Proof.
  intros Hsc Hl a sc0 Ha. unfold wupd. cbn. destruct (decide (a = c_self c)) as [->|].
  - rewrite lookup_insert. eexists. split; [done|]. replace sc0 with sc by congruence. by eapply Q_step.
  - rewrite lookup_insert_ne by done. eauto.
Qed.
Lemma all_Q_exec fuel ro s t v m w r w' : exec adv fuel ro s t v m w = Ok (r, w') -> all_Q w w'.
Proof.
  intros H. eapply (exec_ind adv (fun _ => True) (fun _ _ _ _ => True) all_Q); try done.
  - apply all_Q_refl.
  - apply all_Q_trans.
  - intros. by eapply all_Q_icx.
  - intros w0 k c m0 sc sc' evs _ _ _ Hsc <- _ _ Hl. by eapply all_Q_upd.
Qed.
Lemma all_Q_tx fuel t w r w' : run_tx adv fuel t w = Ok (r, w') -> all_Q w w'.
Proof.
  intros H. eapply (tx_ind adv (fun _ => True) (fun _ _ _ _ => True) all_Q); try done.
  - apply all_Q_refl.
  - apply all_Q_trans.
  - intros. by eapply all_Q_icx.
  - intros w0 k c m0 sc sc' evs _ _ _ Hsc <- _ _ Hl. by eapply all_Q_upd.
  - intros w0 n a i _ _ Hf _ b sc Hb. unfold wupd. cbn. rewrite lookup_insert_ne by congruence. eauto.
  - destruct t; [exact I|]. by destruct i as [| | |? ? ? [] ?| | |].
Qed.
End local_rel.

Record ident (sc sc' : score) : Prop := {
  id_kind : s_kind sc' = s_kind sc;
  id_name : s_name sc' = s_name sc;
  id_symbol : s_symbol sc' = s_symbol sc;
  id_decimals : s_decimals sc' = s_decimals sc;
  id_token : s_token sc' = s_token sc;
  id_max_fee : s_max_fee sc' = s_max_fee sc;
  id_conns : exists l, s_conn_tokens sc' = s_conn_tokens sc ++ l;
  id_irc : s_kind sc = KIrc -> s_supply sc' = s_supply sc
}.
Lemma ident_refl sc : ident sc sc.
Proof. split; try done. exists []. by rewrite app_nil_r. Qed.
Lemma ident_trans a b c : ident a b -> ident b c -> ident a c.
Proof.
  intros [A1 A2 A3 A4 A5 A6 (l1 & A7) A8] [B1 B2 B3 B4 B5 B6 (l2 & B7) B8]. split; try congruence.
  - exists (l1 ++ l2). rewrite B7, A7. by rewrite app_assoc.
  - intros K. rewrite B8 by congruence. auto.
Qed.
Lemma ident_step c m sc sc' evs : lstep (s_kind sc) c m sc sc' evs -> ident sc sc'.
Proof.
  intros Hl. remember (s_kind sc) as k eqn:K. destruct Hl; split; try done; try (by exists []; rewrite app_nil_r);
    cbn; try congruence.
  by exists [t].
Qed.
Lemma ident_exec adv fuel ro s t v m w r w' : exec adv fuel ro s t v m w = Ok (r, w') -> all_Q ident w w'.
Proof. apply all_Q_exec; [apply ident_refl|apply ident_trans|apply ident_step]. Qed.
Lemma ident_tx adv fuel t w r w' : run_tx adv fuel t w = Ok (r, w') -> all_Q ident w w'.
Proof. apply all_Q_tx; [apply ident_refl|apply ident_trans|apply ident_step]. Qed.

(* ------------------------------------------------------------ address space ---- *)
(* contracts live only at non-zero contract addresses *)
Theorem scores_at adv w a sc : reachable adv w -> w_scores w !! a = Some sc -> exists n, a = SCORE n /\ n <> 0%N.
Proof.
  intros Hr Ha. refine (all_P_reachable adv (fun a _ => exists n, a = SCORE n /\ n <> 0%N) _ _ w Hr a sc Ha).
  - done.
  - intros i n b Hb _. eauto.
Qed.
