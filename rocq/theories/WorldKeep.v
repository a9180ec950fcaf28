(* C31: while a converter is active its connector tokens leave it only through conversions. *)
From Coq Require Import String Ascii ZArith Lia.
From stdpp Require Import base countable list numbers strings gmap relations.
From Verif Require Import Res FormulaModel Codec World WorldBasics WorldSteps WorldExec WorldSpec WorldInv WorldMoney WorldAuth WorldCalls WorldConv WorldEvents WorldMore.
Local Open Scope Z_scope.
Local Open Scope M_scope.

Section keep.
Context (adv : adversary) (C F T : addr) (kT : kind).

(* the events that explain a loss *)
Definition excuse (p : addr * event) : bool :=
  match p.2 with
  | EvConversion _ _ _ _ _ _ => bool_decide (p.1 = C)
  | EvOwnerUpdate _ _ => bool_decide (p.1 = F)
  | EvTransfer from to _ _ => bool_decide (p.1 = T) && bool_decide (kT = KFlex) && bool_decide (from = C) && bool_decide (to = T)
  | _ => false
  end.
Definition excuses (l : list (addr * event)) : nat := length (List.filter excuse l).
Lemma excuses_app l l' : excuses (l ++ l') = (excuses l + excuses l')%nat.
Proof. unfold excuses. by rewrite List.filter_app, app_length. Qed.
Lemma excuses_0 l : excuses l = 0%nat -> forall p, p ∈ l -> excuse p = false.
Proof.
  intros H p Hp. destruct (excuse p) eqn:E; [|done]. apply elem_of_list_In in Hp.
  assert (In p (List.filter excuse l)) as Hi by (by apply filter_In). unfold excuses in H. by destruct (List.filter excuse l).
Qed.
Definition grows (w w' : world) : Prop := exists l, w_log w' = l ++ w_log w.
Lemma grows_refl w : grows w w. Proof. by exists []. Qed.
Lemma grows_trans w1 w2 w3 : grows w1 w2 -> grows w2 w3 -> grows w1 w3.
Proof. intros [l1 E1] [l2 E2]. exists (l2 ++ l1). by rewrite E2, E1, app_assoc. Qed.
Lemma exec_grows fuel ro s t v m w r w' : exec adv fuel ro s t v m w = Ok (r, w') -> grows w w'.
Proof.
  intros H. eapply (exec_ind adv (fun _ => True) (fun _ _ _ _ => True) grows); [..|exact H]; try done.
  - apply grows_refl.
  - apply grows_trans.
  - intros s1 t1 v1 m1 w1 w2 _ _ Hm. exists []. by rewrite (move_icx_log _ _ _ _ _ _ Hm).
  - intros w1 k c m1 sc sc' evs _ _ _ Hsc Hk _ _ Hl. by exists (map (pair (c_self c)) evs).
Qed.
Definition count (w : world) : nat := excuses (w_log w).
Lemma grows_count w w' : grows w w' -> (count w <= count w')%nat.
Proof. intros [l E]. unfold count. rewrite E, excuses_app. lia. Qed.

(* a program of C that adds at least n excuses *)
Definition adds {A} (n : nat) (p : M A) : Prop := forall w x w', p w = Ok (x, w') -> (count w + n <= count w')%nat.
Lemma adds_bind {A B} n1 n2 n (p : M A) (f : A -> M B) : adds n1 p -> (forall a, adds n2 (f a)) -> (n <= n1 + n2)%nat -> adds n (bind p f).
Proof. intros H1 H2 Hn w x w' E. apply bind_Ok in E as (a & w1 & E1 & E2). specialize (H1 _ _ _ E1). specialize (H2 _ _ _ _ E2). lia. Qed.
Lemma adds_bind0 {A B} n (p : M A) (f : A -> M B) : adds 0 p -> (forall a, adds n (f a)) -> adds n (bind p f).
Proof. intros. by eapply adds_bind. Qed.
Lemma adds_ret {A} (a : A) : adds 0 (ret a). Proof. intros w x w' [_ <-]%ret_Ok. lia. Qed.
Lemma adds_fail {A} n e : adds n (fail e : M A). Proof. by intros w x w' E. Qed.
Lemma adds_require b e : adds 0 (require b e). Proof. intros w x w' [_ ->]%require_Ok. lia. Qed.
Lemma adds_this c : adds 0 (this c). Proof. intros w x w' E. mrun E. lia. Qed.
Lemma adds_lift {A} (x : res A) : adds 0 (lift x). Proof. intros w y w' E. mrun E. lia. Qed.
Lemma adds_modify c f : adds 0 (modify c f). Proof. intros w y w' E. mrun E. rewrite Nat.add_0_r. apply grows_count. by exists []. Qed.
Lemma adds_emit c e : adds 0 (emit c e). Proof. intros w y w' E. mrun E. rewrite Nat.add_0_r. apply grows_count. by eexists [_]. Qed.
Lemma adds_ecall f c t m : adds 0 (ecall (exec adv f) c t m).
Proof. intros w y w' E. rewrite Nat.add_0_r. eapply grows_count, exec_grows, E. Qed.
Lemma adds_sub x y : adds 0 (safe_sub x y). Proof. intros w z w' E. mrun E. lia. Qed.
Lemma adds_as_int r : adds 0 (as_int r). Proof. destruct r; try apply adds_fail. apply adds_ret. Qed.
Lemma adds_conversion c ft tt_ tr a r fee : c_self c = C -> adds 1 (emit c (EvConversion ft tt_ tr a r fee)).
Proof. intros E w y w' H. mrun H. unfold count, wlog. cbn [w_log]. unfold excuses at 2. cbn. rewrite bool_decide_eq_true_2 by done. cbn. unfold excuses. lia. Qed.
Ltac ad1 :=
  lazymatch goal with
  | |- adds _ (let '(_, _) := ?r in _) => destruct r
  | |- adds _ (if ?b then _ else _) => destruct b
  | |- adds 1 (bind (emit _ (EvConversion _ _ _ _ _ _)) _) => apply (adds_bind 1 0); [by apply adds_conversion|intros ?|lia]
  | |- adds _ (bind _ _) => apply adds_bind0; [|intros ?]
  | |- adds _ (ret _) => apply adds_ret
  | |- adds _ (fail _) => apply adds_fail
  | |- adds _ (require _ _) => apply adds_require
  | |- adds _ (this _) => apply adds_this
  | |- adds _ (lift _) => apply adds_lift
  | |- adds _ (modify _ _) => apply adds_modify
  | |- adds _ (emit _ _) => apply adds_emit
  | |- adds _ (ecall _ _ _ _) => apply adds_ecall
  | |- adds _ (safe_sub _ _) => apply adds_sub
  | |- adds _ (as_int _) => apply adds_as_int
  | |- adds _ (match ?r with _ => _ end) => destruct r
  end.
Ltac ad := repeat ad1.
Lemma adds_active f c : adds 0 (is_active (exec adv f) c). Proof. unfold is_active. ad. Qed.
Lemma adds_balance f c t : adds 0 (getConnectorBalance (exec adv f) c t). Proof. unfold getConnectorBalance, require_valid_connector. ad. Qed.
Lemma adds_supply f c : adds 0 (token_supply (exec adv f) c). Proof. unfold token_supply. ad. Qed.
Lemma adds_fee c x y : adds 0 (with_fee c x y). Proof. unfold with_fee, getFinalAmount. ad. Qed.
Ltac adc := repeat first [apply adds_active|apply adds_balance|apply adds_supply|apply adds_fee|ad1].
Lemma adds_purchase f c t a b : adds 0 (get_purchase_return (exec adv f) c t a b).
Proof. unfold get_purchase_return, require_active, require_valid_connector. adc. Qed.
Lemma adds_sale f c t a : adds 0 (get_sale_return (exec adv f) c t a).
Proof. unfold get_sale_return, require_active, require_valid_connector. adc. Qed.
Lemma adds_cross f c t1 t2 a b : adds 0 (get_cross_connector_return (exec adv f) c t1 t2 a b).
Proof. unfold get_cross_connector_return, require_active, require_valid_connector. adc. Qed.
Lemma adds_price f c t s : adds 0 (price_data_update (exec adv f) c t s). Proof. unfold price_data_update. adc. Qed.
Ltac adr := repeat first [apply adds_purchase|apply adds_sale|apply adds_cross|apply adds_price|apply adds_balance|apply adds_supply|ad1].
Lemma adds_convert f c tr from to a min : c_self c = C -> adds 1 (conv_convert (exec adv f) c tr from to a min).
Proof.
  intros E. unfold conv_convert, require_positive_value, buy, sell, convert_cross. adr.
Qed.

(* what must hold for the connector to be safe *)
Record hyps (w : world) : Prop := {
  h_conv : conv_at w C; h_token : token_of w C = F; h_owner : owner_of w F = C;
  h_conn : is_connector w C T; h_ne : T <> F; h_kind : kind_at w T = Some kT }.
Definition safe (w w' : world) : Prop := grows w w' /\
  (hyps w -> (count w < count w')%nat \/ hyps w' /\ balance_of w T C <= balance_of w' T C).
Lemma safe_refl w : safe w w.
Proof. split; [apply grows_refl|]. intros. by right. Qed.
Lemma safe_trans w1 w2 w3 : safe w1 w2 -> safe w2 w3 -> safe w1 w3.
Proof.
  intros [G1 H1] [G2 H2]. split; [by eapply grows_trans|]. intros Hy. pose proof (grows_count _ _ G1). pose proof (grows_count _ _ G2).
  destruct (H1 Hy) as [?|[Hy1 B1]]; [left; lia|]. destruct (H2 Hy1) as [?|[Hy2 B2]]; [left; lia|]. right. split; [done|lia].
Qed.
Lemma safe_icx s x v w w' u : move_icx s x v w = Ok (u, w') -> safe w w'.
Proof.
  intros H. pose proof (move_icx_scores _ _ _ _ _ _ H) as E. split; [exists []; by rewrite (move_icx_log _ _ _ _ _ _ H)|].
  intros [H1 H2 H3 H4 H5 H6]. right. unfold balance_of, var. rewrite E. split; [|done].
  split; unfold conv_at, kind_at, token_of, owner_of, is_connector, connector_of, var in *; by rewrite ?E.
Qed.
(* the methods that lower the sender's balance *)
Definition takes (m : msg) : bool := match m with MTransfer _ _ _ | MWithdraw _ | MWithdrawTo _ _ | MDestroy _ _ => true | _ => false end.

Lemma hyps_upd w a sc sc' evs : w_scores w !! a = Some sc -> s_kind sc' = s_kind sc ->
  (a = C -> s_token sc' = s_token sc /\ (cn_set (conn sc T) = true -> cn_set (conn sc' T) = true)) ->
  (a = F -> s_owner sc' = s_owner sc) -> hyps w -> hyps (wupd a sc' evs w).
Proof.
  intros Hsc Hk HC HF [(c1 & c2 & c3 & c4) h1 h2 h3 h4 h5].
  assert (forall X, kind_at (wupd a sc' evs w) X = kind_at w X) as EK.
  { intros X. unfold kind_at. cbn. destruct (decide (X = a)) as [->|?]; [rewrite lookup_insert, Hsc; cbn; by rewrite Hk|by rewrite lookup_insert_ne]. }
  assert (token_of (wupd a sc' evs w) C = token_of w C) as ET.
  { unfold token_of, var. cbn. destruct (decide (C = a)) as [<-|?]; [rewrite lookup_insert, Hsc; by apply HC|by rewrite lookup_insert_ne]. }
  split; unfold conv_at; rewrite ?EK, ?ET; try done.
  - rewrite <- h2. unfold owner_of, var. cbn. destruct (decide (F = a)) as [<-|?]; [rewrite lookup_insert, Hsc; by apply HF|by rewrite lookup_insert_ne].
  - unfold is_connector, connector_of, var in *. cbn. destruct (decide (C = a)) as [<-|?]; [|by rewrite lookup_insert_ne].
    rewrite lookup_insert. rewrite Hsc in h3. by apply HC.
Qed.
Lemma conn_set sc t cn x : conn (set_conn t cn sc) x = if decide (x = t) then cn else conn sc x.
Proof. unfold conn, set_conn. cbn. case_decide as E; [subst; by rewrite lookup_insert|by rewrite lookup_insert_ne]. Qed.

Lemma safe_local w k c m sc sc' evs : 0 <= c_value c -> w_scores w !! c_self c = Some sc -> s_kind sc = k ->
  ~ (c_sender c = C /\ c_self c = T /\ takes m = true) ->
  lstep k c m sc sc' evs -> safe w (wupd (c_self c) sc' evs w).
Proof.
  intros Hv Hsc Hk Hm Hl. split; [by exists (map (pair (c_self c)) evs)|]. intros Hy.
  assert (count (wupd (c_self c) sc' evs w) = excuses (map (pair (c_self c)) evs) + count w)%nat as EC.
  { unfold count. cbn [w_log wupd]. by rewrite excuses_app. }
  assert (c_self c = F -> s_owner sc' = s_owner sc \/ (0 < excuses (map (pair (c_self c)) evs))%nat) as HF.
  { intros EF. destruct Hl; try (by left). right. cbn. rewrite EF, bool_decide_eq_true_2 by done. cbn. lia. }
  assert (c_self c = C -> s_token sc' = s_token sc /\ (cn_set (conn sc T) = true -> cn_set (conn sc' T) = true)) as HC.
  { intros _. destruct Hl; (split; [done|]); try done; unfold set_virtual; rewrite ?conn_set; try (change (conn (set_total_weight ?a ?b)) with (conn b)); try (change (conn (set_conn_tokens ?a ?b)) with (conn b)); rewrite ?conn_set; case_decide; subst; cbn; done. }
  assert (c_self c = T -> balance sc C <= balance sc' C \/ (0 < excuses (map (pair (c_self c)) evs))%nat) as HT.
  { intros ET. destruct Hl; try (by left).
    - left. rewrite !balance_add. assert (c_sender c <> C) by (intros ?; apply Hm; subst; done). rewrite (decide_False (P := C = c_sender c)) by congruence. case_decide; lia.
    - left. rewrite balance_set_supply, balance_add. case_decide; lia.
    - left. rewrite balance_set_supply, balance_add. assert (c_sender c <> C) by (intros ?; apply Hm; subst; destruct H0 as [->|[-> _]]; done). rewrite decide_False by congruence. lia.
    - left. rewrite balance_set_supply, balance_add. case_decide; lia.
    - destruct (decide (C = from)) as [<-|Hne].
      + right. cbn. rewrite ET, !bool_decide_eq_true_2; try done; [cbn; lia|]. pose proof (h_kind _ Hy) as K. unfold kind_at in K. rewrite <- ET, Hsc in K. cbn in K. congruence.
      + left. rewrite balance_set_supply, balance_add, decide_False by done. lia. }
  destruct (decide (0 < excuses (map (pair (c_self c)) evs))%nat) as [Hpos|Hz]; [left; rewrite EC; lia|]. right. split.
  - eapply hyps_upd; [exact Hsc|by eapply lstep_kind|done| |done]. intros E. by destruct (HF E).
  - rewrite balance_of_upd. case_decide as E; [|done]. rewrite E, (balance_of_sc _ _ _ _ Hsc). by destruct (HT (eq_sym E)).
Qed.

Theorem safe_exec fuel : forall ro s t v m w r w', ~ (s = C /\ t = T /\ takes m = true) ->
  exec adv fuel ro s t v m w = Ok (r, w') -> safe w w'.
Proof.
  induction fuel as [|f IH]; intros ro s t v m w r w' Hm H; [done|].
  pose proof H as H0. split; [by eapply exec_grows|]. intros Hy.
  apply exec_inv in H as (w1 & H1 & _ & H); [|apply exec_keeps].
  pose proof (move_icx_nonneg _ _ _ _ _ _ H1) as Hv.
  pose proof (safe_icx _ _ _ _ _ _ H1) as [_ S1]. destruct (S1 Hy) as [S2|[Hy1 B1]].
  { unfold count in S2. rewrite (move_icx_log _ _ _ _ _ _ H1) in S2. lia. }
  destruct H as [(n & -> & -> & ->)|(sc & Ht & Hsc & _ & Hpay & Hh & _ & H)]; [by right|].
  assert (count w1 = count w) as EC by (unfold count; by rewrite (move_icx_log _ _ _ _ _ _ H1)).
  enough ((count w1 < count w')%nat \/ hyps w' /\ balance_of w1 T C <= balance_of w' T C) as [?|[? ?]]; [left; lia|right; split; [done|lia]|].
  assert ((exists from x d, t = C /\ m = MTokenFallback from x d) \/ ~ (t = C /\ exists from x d, m = MTokenFallback from x d)) as [(from & x & d & -> & ->)|Hnf].
  { destruct (decide (t = C)); [|right; by intros [? _]]. destruct m; try (by right; intros (_ & ? & ? & ? & ?)). left. eauto 6. }
  { (* a conversion *)
    left. pose proof (h_conv _ Hy1) as HC. assert (s_kind sc = KConv) as Hk. { destruct HC as (_ & K & _). unfold kind_at in K. rewrite Hsc in K. cbn in K. congruence. }
    rewrite Hk in Hh. specialize (Hh ltac:(done)). cbn -[conv_tokenFallback exec] in Hh. unfold conv_tokenFallback in Hh.
    apply bind_Ok in Hh as (u1 & w2 & E1 & Hh). apply require_Ok in E1 as [_ ->].
    apply bind_Ok in Hh as (sc1 & w2 & E1 & Hh). mrun E1.
    apply bind_Ok in Hh as (b & w2 & E1 & Hh).
    assert (b = false /\ w2 = w1) as [-> ->].
    { destruct (bool_decide (from = s_owner sc1) && cn_set (conn sc1 (c_sender (frame ro s C v (MTokenFallback from x d) KConv)))).
      - apply bind_Ok in E1 as (b1 & w3 & E2 & E1). apply is_active_inv in E2 as [-> ->]; [|exact HC]. apply ret_Ok in E1 as [-> ->]. split; [|done].
        rewrite bool_decide_eq_true_2; [done|]. cbn. unfold active. rewrite (h_token _ Hy1). apply (h_owner _ Hy1).
      - by apply ret_Ok in E1 as [-> ->]. }
    match type of Hh with ?p w1 = _ => assert (adds 1 p) as Ha end; [|specialize (Ha _ _ _ Hh); lia].
    cbn iota. repeat first [eapply (adds_bind 1 0); [by apply adds_convert|intros ?; apply adds_ret|lia]|ad1]. }
  refine (proj2 (esteps_rel adv f (s_kind sc) (frame ro s t v m (s_kind sc)) m safe safe_refl safe_trans _ _ w1 w' sc Hsc eq_refl H) Hy1).
  - intros w2 sc2 sc' evs Hs2 Hk2 Hl. by eapply safe_local.
  - cbn. intros ro' w2 w3 sc2 to v' m' r' Hs2 Hk2 Hc _ E. split; [by eapply exec_grows|]. intros Hy2.
    eapply IH; [|exact E|exact Hy2]. intros (-> & -> & Hta).
    destruct Hc as [Hc|Hc].
    { destruct (h_conv _ Hy2) as (_ & K & _). unfold kind_at in K. rewrite Hs2 in K. cbn in K. congruence. }
    assert (s_token sc2 = F) as EF. { rewrite <- (h_token _ Hy2). unfold token_of, var. by rewrite Hs2. }
    destruct (h_conv _ Hy2) as (_ & K & _). unfold kind_at in K. rewrite Hs2 in K. cbn in K. rewrite Hk2 in K.
    pose proof (h_ne _ Hy2) as Hne.
    inversion Hc; subst; try done; try congruence; try (by apply Hnf; eauto 6).
    + by destruct m'.
    + eapply (conv_withdraw_inv adv _ _ _ _ _ _ _ _ _ _ _ (h_conv _ Hy)); [exact H0| |apply (h_conn _ Hy)]. unfold active. rewrite (h_token _ Hy). apply (h_owner _ Hy).
Qed.

Theorem safe_tx fuel x w r w' : hyps w -> run_tx adv fuel x w = Ok (r, w') -> safe w w'.
Proof.
  intros Hy0 H.
  assert (forall n a i, x = TDeploy n a i -> w_scores w !! SCORE a = None -> SCORE a <> C /\ SCORE a <> F /\ SCORE a <> T) as Hne.
  { intros n a i _ Hf. destruct Hy0 as [(_ & K1 & _ & K2) E _ _ _ K3]. rewrite E in K2. unfold kind_at in K1, K2, K3. split; [|split]; intros <-; by rewrite Hf in *. }
  eapply (tx_rel adv safe safe_refl safe_trans); [..|exact H].
  - intros n to v m -> E. eapply safe_exec; [|exact E]. intros (E1 & _). destruct Hy0 as [(K & _)]. by rewrite <- E1 in K.
  - intros n a i E Ha Hf _. destruct (Hne _ _ _ E Hf) as (N1 & N2 & N3). split; [by eexists|]. intros [(c1 & c2 & c3 & c4) h1 h2 h3 h4 h5]. right.
    split; [|unfold balance_of, var; cbn; by rewrite lookup_insert_ne].
    split; unfold conv_at, token_of, owner_of, is_connector, connector_of, kind_at, var in *; cbn [w_scores wupd]; rewrite ?(lookup_insert_ne _ _ C), ?(lookup_insert_ne _ _ F), ?(lookup_insert_ne _ _ T) by done; try done.
    rewrite h1 in *. rewrite (lookup_insert_ne _ _ F) by done. done.
  - intros n a i w1 sc cn wt sc' evs E Hf Hsc Hk Hl. destruct (Hne _ _ _ E Hf) as (N1 & N2 & N3).
    eapply (safe_local w1 KConv (Ctx (SCORE a) (EOA n) 0 false)); [done|exact Hsc|exact Hk| |exact Hl]. by intros (_ & ? & _).
  - intros n a i ro w1 w2 sc to m' r' E Hf Hsc Hk Hro H2. eapply safe_exec; [|exact H2]. intros (_ & _ & ?). by destruct m'.
Qed.
Theorem safe_later w w' : later adv w w' -> hyps w -> safe w w'.
Proof.
  induction 1 as [w|w w1 w2 (fuel & x & ->) Hl IH]; [intros _; apply safe_refl|]. intros Hy.
  unfold apply_tx in *. destruct (run_tx adv fuel x w) as [[r w1]|] eqn:E; [|by apply IH].
  pose proof (safe_tx _ _ _ _ _ Hy E) as S1.
  assert (grows w1 w2) as G2.
  { destruct (follows_later adv (fun _ => tt) (fun _ => None) (fun _ _ _ _ _ evs _ _ => match default tt (latest _ evs) as u return tt = u with tt => eq_refl end) zero_score w1 w2 Hl) as (l & El & _). by exists l. }
  split; [eapply grows_trans; [apply S1|exact G2]|]. intros _. destruct S1 as [G1 S1]. pose proof (grows_count _ _ G2). pose proof (grows_count _ _ G1).
  destruct (S1 Hy) as [?|[Hy1 B1]]; [left; lia|]. destruct (IH Hy1) as [_ S2]. destruct (S2 Hy1) as [?|[Hy2 B2]]; [left; lia|]. right. split; [done|lia].
Qed.
Lemma loss_excused w w' : later adv w w' -> hyps w -> balance_of w' T C < balance_of w T C -> exists p, p ∈ log_since w w' /\ excuse p = true.
Proof.
  intros Hl Hy Hb. destruct (safe_later _ _ Hl Hy) as [[l El] S]. rewrite (since_app _ _ _ El).
  destruct (S Hy) as [Hc|[_ ?]]; [|lia]. unfold count in Hc. rewrite El, excuses_app in Hc. unfold excuses at 2 in Hc.
  destruct (List.filter excuse l) as [|p l'] eqn:Ef; [cbn in Hc; unfold excuses in Hc; lia|].
  exists p. assert (In p (List.filter excuse l)) as Hi by (rewrite Ef; by left). apply filter_In in Hi as [Hi ?]. by rewrite elem_of_list_In.
Qed.
End keep.

Theorem connectors_kept adv w w' C T : later adv w w' -> conv_at w C -> active w C -> is_connector w C T -> T <> token_of w C -> is_token w T ->
  balance_of w' T C < balance_of w T C ->
  (exists from to trader x y fee, (C, EvConversion from to trader x y fee) ∈ log_since w w') \/
  (exists prev new, (token_of w C, EvOwnerUpdate prev new) ∈ log_since w w') \/
  (kind_at w T = Some KFlex /\ exists x d, (T, EvTransfer C T x d) ∈ log_since w w').
Proof.
  intros Hl HC Ha Hc Hn HT Hb.
  assert (exists k, kind_at w T = Some k) as [k Hk] by (destruct HT as [?|[?|?]]; eauto).
  destruct (loss_excused adv C (token_of w C) T k w w' Hl) as ([a e] & He & Hx); [by split|done|].
  unfold excuse in Hx. cbn [fst snd] in Hx. destruct e; try done.
  - right. right. bools. subst. eauto.
  - right. left. bools. subst. eauto.
  - left. bools. subst. eauto 10.
Qed.
