(* The network never loses tokens or coins (C46). *)
From Coq Require Import String Ascii ZArith Lia.
From stdpp Require Import base countable list numbers strings gmap relations.
From Verif Require Import Res FormulaConsts FormulaModel Codec World WorldBasics WorldSteps WorldExec WorldSpec WorldInv WorldMoney WorldAuth.
Local Open Scope Z_scope.
Local Open Scope M_scope.

Lemma list_ind2 {A} (P : list A -> Prop) : P [] -> (forall a, P [a]) -> (forall a b l, P l -> P (a :: b :: l)) -> forall l, P l.
Proof. intros H0 H1 H2. fix IH 1. intros [|a [|b l]]; [done|apply H1|apply H2, IH]. Qed.

(* handlers of tokens, taken apart *)
Lemma token_transfer_inv adv f k c w r w' sc to x d : token_kind k = true -> w_scores w !! c_self c = Some sc ->
  honest_handler (exec adv f) k c (MTransfer to x d) w = Ok (r, w') ->
  0 <= x <= balance sc (c_sender c) /\ (k = KFlex -> s_transferable sc = true) /\ (k = KIcx -> to <> c_self c) /\ r = RNone /\
  exists r2 w2,
    let w1 := wupd (c_self c) (add_bal to x (add_bal (c_sender c) (- x) sc)) [] w in
    (if is_contract to then exec adv f (c_ro c) (c_self c) to 0 (MTokenFallback (c_sender c) x (default data_none d)) else ret RNone) w1 = Ok (r2, w2) /\
    w' = wlog (c_self c) (EvTransfer (c_sender c) to x (default data_none d)) w2.
Proof.
  intros Hk Hsc H.
  assert ((k = KFlex -> s_transferable sc = true) /\ (k = KIcx -> to <> c_self c) /\
     done_ (irc_transfer_ (exec adv f) c (c_sender c) to x (default data_none d)) w = Ok (r, w')) as (H1 & H2 & H3).
  { destruct k; try done; cbn in H.
    - unfold done_ at 1 in H. apply bind_Ok in H as (u & w1 & H & H').
      unfold icx_transferTo, require_not_this in H. apply bind_Ok in H as (u1 & w2 & H1 & H2). mrun H1.
      split; [done|]. split; [congruence|].
      unfold done_. apply bind_Ok. exists u, w1. done.
    - unfold done_ at 1 in H. apply bind_Ok in H as (u & w1 & H & H').
      unfold flex_transfer in H. apply bind_Ok in H as (sc0 & w2 & H1 & H2). mrun H1.
      apply bind_Ok in H2 as (u1 & w3 & H1 & H2). mrun H1.
      split; [done|]. split; [done|].
      unfold done_. apply bind_Ok. exists u, w1. done. }
  clear H. unfold done_, irc_transfer_, ecall in H3. mrun H3. bools.
  split; [lia|]. repeat split; try done. destruct (is_contract to) eqn:Ec; eauto.
Qed.
Lemma destroy_inv adv f c w r w' sc from x : w_scores w !! c_self c = Some sc ->
  honest_handler (exec adv f) KFlex c (MDestroy from x) w = Ok (r, w') ->
  0 < x <= balance sc from /\ (c_sender c = from \/ c_sender c = s_owner sc) /\
  w' = wupd (c_self c) (set_supply (s_supply sc - x) (add_bal from (- x) sc))
          [EvTransfer from (c_self c) x data_none; EvDestruction x] w.
Proof.
  intros Hsc H. cbn in H. unfold done_, flex_destroy, require_positive_value in H. mrun H. bools.
  split; [lia|]. split; [|reflexivity]. destruct_or!; bools; auto.
Qed.

Lemma transfer_dec m : (exists to x d, m = MTransfer to x d) \/ ~ (exists to x d, m = MTransfer to x d).
Proof. destruct m; try (right; by intros (? & ? & ? & ?)). left. eauto. Qed.
Lemma destroy_dec m : (exists a x, m = MDestroy a x) \/ ~ (exists a x, m = MDestroy a x).
Proof. destruct m; try (right; by intros (? & ? & ?)). left. eauto. Qed.

Lemma token_sc w T : is_token w T -> exists sc, w_scores w !! T = Some sc /\ token_kind (s_kind sc) = true.
Proof.
  unfold is_token, kind_at. destruct (w_scores w !! T) as [sc|]; cbn; [|by intros [?|[?|?]]].
  intros G. exists sc. split; [done|]. by destruct G as [[= ->]|[[= ->]|[= ->]]].
Qed.

Section net.
Variable adv : adversary.

(* what balanceOf of a genuine token answers *)
Lemma balance_view f ro s T a w r w' sc : w_scores w !! T = Some sc -> token_kind (s_kind sc) = true ->
  exec adv f ro s T 0 (MBalanceOf a) w = Ok (r, w') -> w' = w /\ r = RInt (balance sc a).
Proof.
  intros Hsc Hk H. destruct f as [|f]; [done|].
  apply exec_inv in H as (w1 & H1 & _ & H); [|apply exec_keeps].
  apply move_icx_Ok in H1 as [[_ ->]|H1]; [|lia].
  destruct H as [(n & _ & ? & _)|(sc0 & _ & Hsc0 & _ & _ & Hh & _ & H)]; [done|].
  assert (sc0 = sc) as -> by congruence.
  destruct (s_kind sc) eqn:K; try done; specialize (Hh ltac:(done)); cbn in Hh; mrun Hh; cbn in Hsc1; (split; [done|]); congruence.
Qed.
Lemma exec_transfer_nonneg f ro s T to x d w r w' : is_token w T ->
  exec adv f ro s T 0 (MTransfer to x d) w = Ok (r, w') -> 0 <= x.
Proof.
  intros HT H. destruct f as [|f]; [done|].
  apply exec_inv in H as (w1 & H1 & _ & H); [|apply exec_keeps].
  apply move_icx_Ok in H1 as [[_ ->]|H1]; [|lia].
  destruct H as [(n & _ & ? & _)|(sc & _ & Hsc & _ & _ & Hh & _ & H)]; [done|].
  assert (token_kind (s_kind sc) = true) as Hk.
  { unfold is_token, kind_at in HT. rewrite Hsc in HT. cbn in HT. by destruct HT as [[= ->]|[[= ->]|[= ->]]]. }
  eapply token_transfer_inv in Hh; [|done|exact Hsc|by intros E; rewrite E in Hk]. lia.
Qed.

(* ---------------------------------------------------------------- the coins ---- *)
Definition pays (m : msg) : bool := match m with MConvert _ _ | MConvertFor _ _ _ => true | _ => false end.
Lemma convert_by_path_frame (R : world -> world -> Prop) f c : (forall w, R w w) -> (forall w1 w2 w3, R w1 w2 -> R w2 w3 -> R w1 w3) ->
  (forall to m w r w', exec adv f (c_ro c) (c_self c) to 0 m w = Ok (r, w') -> R w w') ->
  forall rest from amount min w r w', convert_by_path (exec adv f) c from rest amount min w = Ok (r, w') -> R w w'.
Proof.
  intros R1 R2 Hcall. refine (list_ind2 _ _ _ _).
  - intros from amount min w r w' H. cbn in H. mrun H. apply R1.
  - intros a from amount min w r w' H. cbn in H. mrun H. apply R1.
  - intros a b rest IH from amount min w r w' H. cbn [convert_by_path] in H. unfold ecall in H.
    mrun H. eapply R2; [by eapply Hcall|]. eapply R2; [by eapply Hcall|]. eapply R2; [by eapply Hcall|].
    eapply R2; [by eapply Hcall|]. by eapply IH.
Qed.
Lemma internal_frame (R : world -> world -> Prop) f c : (forall w, R w w) -> (forall w1 w2 w3, R w1 w2 -> R w2 w3 -> R w1 w3) ->
  (forall to m w r w', exec adv f (c_ro c) (c_self c) to 0 m w = Ok (r, w') -> R w w') ->
  forall path amount min for_ w r w', convert_for_internal (exec adv f) c path amount min for_ w = Ok (r, w') -> R w w'.
Proof.
  intros R1 R2 Hcall path amount min for_ w r w' H. unfold convert_for_internal, ecall in H. destruct path as [|p0 rest]; [done|].
  apply bind_Ok in H as ([to am] & w1 & H1 & H). eapply R2; [by eapply convert_by_path_frame|].
  apply bind_Ok in H as (sc & w2 & H2 & H). apply this_Ok in H2 as [_ ->].
  apply bind_Ok in H as (u & w2 & H2 & H). mrun H. destruct (default false _); by eapply Hcall.
Qed.
Definition convert_target (m : msg) (s : addr) : option (string * Z * addr) :=
  match m with MConvert p x => Some (p, x, s) | MConvertFor p x a => Some (p, x, a) | _ => None end.
(* convert and convertFor, taken apart *)
Lemma convert_inv f c m w r w' sc p x a : convert_target m (c_sender c) = Some (p, x, a) -> w_scores w !! c_self c = Some sc ->
  honest_handler (exec adv f) KNet c m w = Ok (r, w') ->
  exists p0 rest r1 w1 z, convert_path p = Some (p0 :: rest) /\ valid_path (p0 :: rest) = true /\ 0 < x /\ a <> zero_score /\ a <> c_self c /\
    default false (s_icx_tokens sc !! p0) = true /\
    exec adv f (c_ro c) (c_self c) p0 (c_value c) MFallback w = Ok (r1, w1) /\
    convert_for_internal (exec adv f) c (p0 :: rest) (c_value c) (JInt x) a w1 = Ok (z, w') /\ r = RInt z.
Proof.
  intros Hm Hsc H.
  assert (exists z, convertFor (exec adv f) c p x a w = Ok (z, w') /\ r = RInt z) as (z & E & ->).
  { destruct m; try done; injection Hm as -> -> <-; cbn in H; apply bind_Ok in H as (z & w1 & H1 & H2); mrun H2; eauto. }
  clear H. unfold convertFor, require_valid_path, require_positive_value, require_valid_address, is_valid_address, require_not_this, icx_transfer in E.
  destruct (convert_path p) as [[|p0 rest]|] eqn:Ep; [exfalso; mrun E| |done].
  apply bind_Ok in E as (u1 & w1 & E1 & E). mrun E1. apply bind_Ok in E as (u2 & w1 & E1 & E). mrun E1.
  apply bind_Ok in E as (u3 & w1 & E1 & E). mrun E1. apply bind_Ok in E as (u4 & w1 & E1 & E). mrun E1.
  apply bind_Ok in E as (sc' & w1 & E1 & E). mrun E1. apply bind_Ok in E as (u5 & w1 & E1 & E). mrun E1.
  apply bind_Ok in E as (r1 & w1 & E1 & E). bools.
  exists p0, rest, r1, w1, z. repeat split; try done; try congruence.
Qed.

Theorem net_icx_exec N : is_contract N = true -> forall fuel ro s t v m w r w', kind_at w N = Some KNet ->
  exec adv fuel ro s t v m w = Ok (r, w') -> icx w' N = icx w N - (if decide (s = N) then v else 0).
Proof.
  intros HN. induction fuel as [|f IH]; intros ro s t v m w r w' HK H; [done|].
  apply exec_inv in H as (w1 & H1 & _ & H); [|apply exec_keeps].
  pose proof (move_icx_scores _ _ _ _ _ _ H1) as ES.
  pose proof (move_icx_eq _ _ _ _ _ _ H1 N) as E1.
  assert (kind_at w1 N = Some KNet) as HK1 by (unfold kind_at; by rewrite ES).
  destruct H as [(n & -> & _ & ->)|(sc & Ht & Hsc & _ & Hpay & Hh & _ & H)].
  { rewrite E1. rewrite (decide_False (P := N = EOA n)); [|by intros ->]. repeat case_decide; subst; try done; lia. }
  enough (icx w' N = icx w1 N - (if decide (t = N) then v else 0)) by (repeat case_decide; subst; try done; lia).
  clear E1 H1 ES.
  set (R := fun w w' => kind_at w N = Some KNet -> kind_at w' N = Some KNet /\ icx w' N = icx w N).
  assert (forall w1 w2 w3, R w1 w2 -> R w2 w3 -> R w1 w3) as Rt.
  { intros w2 w3 w4 A B C. destruct (A C) as [A1 A2]. destruct (B A1) as [B1 B2]. split; [done|congruence]. }
  assert (forall w, R w w) as Rr by done.
  assert (forall ro s to m w r w', exec adv f ro s to 0 m w = Ok (r, w') -> R w w') as R0.
  { intros ro' s' to m' w2 r' w3 E HK2. split; [by eapply exec_kind_at|]. rewrite (IH _ _ _ _ _ _ _ _ HK2 E). case_decide; lia. }
  case_decide as Et.
  - subst t. destruct (proj1 (kind_at_Some _ _ _) HK1) as (sc0 & Hsc0 & Hk). assert (sc0 = sc) as -> by congruence. clear Hsc0.
    rewrite Hk in *. specialize (Hh ltac:(done)).
    destruct (convert_target m s) as [[[p x] a]|] eqn:Em.
    + eapply convert_inv in Hh as (p0 & rest & r1 & w2 & z & _ & _ & _ & _ & _ & _ & Ex & Ei & _); [|exact Em|exact Hsc].
      pose proof (exec_kind_at _ _ _ _ _ _ _ _ _ _ _ _ Ex HK1) as HK2.
      apply IH in Ex; [|done]. cbn [c_self c_value frame] in Ex. rewrite decide_True in Ex by done.
      destruct (internal_frame R f _ Rr Rt (fun to m w r w' => R0 _ _ to m w r w') _ _ _ _ _ _ _ Ei HK2) as [_ ->]. lia.
    + assert (v = 0) as -> by (destruct Hpay as [Hp|]; [by destruct m|done]).
      assert (R w1 w') as HR; [|destruct (HR HK1) as [_ ->]; lia].
      refine (esteps_rel adv f KNet (frame ro s N 0 m KNet) m R Rr Rt _ _ w1 w' sc Hsc Hk H).
      * cbn. intros w2 sc2 sc' evs Hs2 Hk2 Hl HK2. split; [|done].
        apply kind_at_Some. eexists. split; [apply lookup_insert|]. apply lstep_kind in Hl. congruence.
      * cbn. intros ro' w2 w3 sc2 to v' m' r' Hs2 Hk2 [?|Hc] _ E; [done|].
        assert (v' = 0) as ->; [|by eapply R0]. by destruct Hc.
  - assert (R w1 w') as HR; [|destruct (HR HK1) as [_ ->]; lia].
    refine (esteps_rel adv f (s_kind sc) (frame ro s t v m (s_kind sc)) m R Rr Rt _ _ w1 w' sc Hsc eq_refl H).
    + cbn. intros w2 sc2 sc' evs Hs2 Hk2 Hl HK2. split; [|done].
      unfold kind_at in *. cbn. by rewrite lookup_insert_ne.
    + cbn. intros ro' w2 w3 sc2 to v' m' r' Hs2 Hk2 _ _ E HK2. split; [by eapply exec_kind_at|].
      rewrite (IH _ _ _ _ _ _ _ _ HK2 E), decide_False by done. lia.
Qed.
Theorem net_icx_tx fuel t w r w' N : is_contract N = true -> kind_at w N = Some KNet ->
  run_tx adv fuel t w = Ok (r, w') -> icx w' N = icx w N.
Proof.
  intros HT HK H. enough (kind_at w N = Some KNet -> kind_at w' N = Some KNet /\ icx w' N = icx w N) as G by (by apply G).
  clear HK. eapply (tx_rel adv (fun w w' => kind_at w N = Some KNet -> kind_at w' N = Some KNet /\ icx w' N = icx w N)); [by auto| | | | | |exact H].
  - intros w2 w3 w4 A B C. destruct (A C) as [A1 A2]. destruct (B A1) as [B1 B2]. split; [done|congruence].
  - intros n to v m _ E HK. split; [by eapply exec_kind_at|]. eapply net_icx_exec in E; [|done|done].
    rewrite E, decide_False; [lia|]. by intros <-.
  - intros n a i _ Ha Hf _ HK. assert (N <> SCORE a) as Hne.
    { intros ->. unfold kind_at in HK. by rewrite Hf in HK. }
    split; [unfold kind_at in *; cbn; by rewrite lookup_insert_ne|]. done.
  - intros n a i w1 sc cn wt sc' evs _ _ Hs Hk _ HK. assert (N <> SCORE a) as Hne.
    { intros ->. unfold kind_at in HK. rewrite Hs in HK. cbn in HK. congruence. }
    split; [unfold kind_at in *; cbn; by rewrite lookup_insert_ne|]. done.
  - intros n a i ro w1 w2 sc to m' r0 _ _ Hs Hk _ E HK. split; [by eapply exec_kind_at|].
    eapply net_icx_exec in E; [|done|done]. rewrite E. case_decide; lia.
Qed.

(* ---------------------------------------------------------------- the tokens ---- *)
(* a plain transfer of coins to a token *)
Lemma exec_deposit f ro s T v w r w' sc : w_scores w !! T = Some sc -> token_kind (s_kind sc) = true ->
  is_contract T = true -> exec adv f ro s T v MFallback w = Ok (r, w') -> s_kind sc = KIcx /\
  exists w1, move_icx s T v w = Ok (tt, w1) /\
  w' = wupd T (set_supply (s_supply sc + v) (add_bal s v sc)) [EvTransfer T s v data_none; EvIssuance v] w1.
Proof.
  intros Hsc Hk HTc H. destruct f as [|f]; [done|].
  apply exec_inv in H as (w1 & H1 & _ & H); [|apply exec_keeps].
  assert (w_scores w1 !! T = Some sc) as Hsc1 by (by rewrite (move_icx_scores _ _ _ _ _ _ H1)).
  destruct H as [(n & -> & ? & ->)|(sc0 & Ht & Hsc0 & _ & _ & Hh & _ & H)].
  { done. }
  assert (sc0 = sc) as -> by congruence.
  destruct (s_kind sc) eqn:K; try done; specialize (Hh ltac:(done)); [by cbn in Hh| |by cbn in Hh].
  split; [done|]. exists w1. split; [done|]. eapply deposit_inv in Hh; [|by left|exact Hsc1]. done.
Qed.
(* tokenFallback of the network, taken apart *)
Lemma net_fallback_inv f c from x d w r w' :
  honest_handler (exec adv f) KNet c (MTokenFallback from x d) w = Ok (r, w') ->
  (d = data_result /\ w' = w) \/
  exists rest rq z y, d <> data_result /\ convert_bytes_data d from = Some rq /\ rq_path rq = c_sender c :: rest /\ valid_path (c_sender c :: rest) = true /\
    json_int (rq_min rq) = Some z /\ 0 < z /\ rq_for rq <> zero_score /\
    convert_for_internal (exec adv f) c (c_sender c :: rest) x (rq_min rq) (rq_for rq) w = Ok (y, w').
Proof.
  intros H. cbn in H. unfold done_ in H. apply bind_Ok in H as (u & w1 & H & E). apply ret_Ok in E as [_ ->].
  unfold net_tokenFallback in H. case_bool_decide as Hd; [mrun H; by left|]. right.
  destruct (convert_bytes_data d from) as [rq|] eqn:Erq; [|done].
  unfold require_positive_value, require_valid_address, is_valid_address, require_valid_path in H.
  apply bind_Ok in H as (u1 & w2 & E & H). mrun E.
  apply bind_Ok in H as (u2 & w2 & E & H). destruct (json_int (rq_min rq)) as [z|] eqn:Ez; [|done]. mrun E. bools.
  apply bind_Ok in H as (u3 & w2 & E & H). mrun E.
  apply bind_Ok in H as (u4 & w2 & E & H). mrun E.
  apply bind_Ok in H as (y & w2 & E & H). mrun H.
  destruct (rq_path rq) as [|p0 rest] eqn:Ep; [done|]. cbn in Hreq. injection Hreq as ->.
  exists rest, rq, z, y. done.
Qed.

Section tokens.
Variable w0 : world.
Variable n0 : N.
Hypothesis no_eoa : forall n, w_scores w0 !! EOA n = None.
Hypothesis no_zero : w_scores w0 !! zero_score = None.
Notation sinv := (sinv w0 n0).
Notation scall := (scall w0 n0).
Notation guarded := (guarded w0 n0).

Lemma sinv_exec fuel ro s t v m w r w' : sinv w -> scall s t v m -> exec adv fuel ro s t v m w = Ok (r, w') -> sinv w'.
Proof.
  intros HI HA H.
  refine (exec_ind adv sinv scall (fun w w' => sinv w -> sinv w') _ _ _ _ _ _ _ fuel ro s t v m w r w' HA HI H HI); try done; eauto.
  - intros. by eapply sinv_icx.
  - intros w1 k c m1 sc sc' evs HA1 HI1 Hc Hs Hk _ _ Hl _. by eapply sinv_local.
  - intros. by eapply scall_hcall.
  - intros. by eapply scall_adv.
Qed.

Variables N T : addr.
Hypothesis HN : kind_at w0 N = Some KNet.
Hypothesis GN : guarded N.
Hypothesis HT : is_token w0 T.
Hypothesis GT : kind_at w0 T = Some KFlex -> guarded T.

Definition bal (w : world) : Z := balance_of w T N.
(* how many tokens of N a call can spend *)
Definition cost (s t : addr) (m : msg) : Z :=
  match m with
  | MTransfer _ x _ | MWithdrawTo x _ | MWithdraw x | MDestroy _ x =>
      if decide (s = N /\ t = T) then Z.max 0 x else 0
  | MTokenFallback _ x _ => if decide (s = T /\ t = N) then Z.max 0 x else 0
  | _ => 0
  end.
Definition safe_calls (f : nat) : Prop := forall ro s t v m w r w', sinv w -> scall s t v m ->
  exec adv f ro s t v m w = Ok (r, w') -> bal w - cost s t m <= bal w'.

Lemma N_not_T : N <> T.
Proof. intros ->. destruct HT as [E|[E|E]]; congruence. Qed.
Lemma sinv_token w : sinv w -> is_token w T.
Proof. intros HI. destruct HT as [E|[E|E]]; apply (si_kind _ _ _ HI) in E; unfold is_token; auto. Qed.
Lemma T_contract w : sinv w -> is_contract T = true.
Proof. intros HI. destruct T as [n|n]; [|done]. destruct HT as [E|[E|E]]; unfold kind_at in E; by rewrite no_eoa in E. Qed.
Lemma sinv_net w : sinv w -> kind_at w N = Some KNet.
Proof. intros HI. by apply (si_kind _ _ _ HI). Qed.
Lemma cost_other s t m : s <> N -> s <> T -> cost s t m = 0.
Proof. intros ? ?. unfold cost. destruct m; try done; rewrite decide_False; tauto. Qed.

(* the calls of the network *)
Lemma N_call w to m : sinv w -> administrative m = false -> (forall a x, m <> MDestroy a x) -> scall N to 0 m.
Proof.
  intros HI Hm Hd. split.
  { intros ->. unfold kind_at in HN. by rewrite no_zero in HN. }
  split. { intros n ->. unfold kind_at in HN. by rewrite no_eoa in HN. }
  intros _. split; [done|]. intros a x E. by apply Hd in E.
Qed.

Lemma path_safe f c : safe_calls f -> c_self c = N -> forall rest from amount min w r w' B, sinv w ->
  B + (if decide (from = T) then amount else 0) <= bal w -> B <= bal w ->
  convert_by_path (exec adv f) c from rest amount min w = Ok (r, w') ->
  sinv w' /\ B + (if decide (r.1 = T) then r.2 else 0) <= bal w' /\ B <= bal w'.
Proof.
  intros Hf Hc. refine (list_ind2 _ _ _ _).
  - intros from amount min w r w' B HI HB HB' H. cbn in H. mrun H. done.
  - intros a from amount min w r w' B HI HB HB' H. cbn in H. mrun H. done.
  - intros a b rest IH from amount min w r w' B HI HB HB' H. cbn [convert_by_path] in H. unfold ecall in H. rewrite Hc in H.
    apply bind_Ok in H as (r1 & w1 & H1 & H).
    pose proof (N_call w a MGetOwner HI ltac:(done) ltac:(done)) as A1.
    pose proof (Hf _ _ _ _ _ _ _ _ HI A1 H1) as B1. cbn [cost] in B1.
    pose proof (sinv_exec _ _ _ _ _ _ _ _ _ HI A1 H1) as I1.
    apply bind_Ok in H as (conv & w1' & E & H). apply as_addr_Ok in E as [-> ->].
    apply bind_Ok in H as (r2 & w2 & H2 & H).
    pose proof (N_call w1 b (MBalanceOf N) I1 ltac:(done) ltac:(done)) as A2.
    pose proof (Hf _ _ _ _ _ _ _ _ I1 A2 H2) as B2. cbn [cost] in B2.
    pose proof (sinv_exec _ _ _ _ _ _ _ _ _ I1 A2 H2) as I2.
    apply bind_Ok in H as (before & w2' & E & H). apply as_int_Ok in E as [-> ->].
    apply bind_Ok in H as (r3 & w3 & H3 & H).
    match type of H3 with exec _ _ _ _ _ _ ?m _ = _ => pose proof (N_call w2 from m I2 ltac:(done) ltac:(done)) as A3 end.
    pose proof (Hf _ _ _ _ _ _ _ _ I2 A3 H3) as B3. cbn [cost] in B3.
    pose proof (sinv_exec _ _ _ _ _ _ _ _ _ I2 A3 H3) as I3.
    apply bind_Ok in H as (r4 & w4 & H4 & H).
    pose proof (N_call w3 b (MBalanceOf N) I3 ltac:(done) ltac:(done)) as A4.
    pose proof (Hf _ _ _ _ _ _ _ _ I3 A4 H4) as B4. cbn [cost] in B4.
    pose proof (sinv_exec _ _ _ _ _ _ _ _ _ I3 A4 H4) as I4.
    apply bind_Ok in H as (after & w4' & E & H). apply as_int_Ok in E as [-> ->].
    assert (B <= bal w4) as HB4.
    { destruct (decide (from = T)) as [->|Hne].
      - apply exec_transfer_nonneg in H3; [|by apply sinv_token]. rewrite decide_True in B3 by done. lia.
      - rewrite decide_False in B3 by tauto. lia. }
    eapply IH in H; [exact H|done| |exact HB4].
    destruct (decide (b = T)) as [->|Hne]; [|lia].
    assert (before = bal w1 /\ after = bal w3 /\ w4 = w3 /\ w2 = w1) as (-> & -> & -> & ->).
    { pose proof (sinv_token _ I1) as T1. pose proof (sinv_token _ I3) as T3.
      destruct (token_sc _ _ T1) as (sc1 & S1 & K1). destruct (token_sc _ _ T3) as (sc3 & S3 & K3).
      eapply balance_view in H2 as [-> [= ->]]; [|exact S1|done]. eapply balance_view in H4 as [-> [= ->]]; [|exact S3|done].
      unfold bal. by rewrite (balance_of_sc _ _ _ _ S1), (balance_of_sc _ _ _ _ S3). }
    lia.
Qed.

Lemma internal_safe f c : safe_calls f -> c_self c = N -> forall p0 rest amount min for_ w r w' B, sinv w ->
  B + (if decide (p0 = T) then amount else 0) <= bal w -> B <= bal w ->
  convert_for_internal (exec adv f) c (p0 :: rest) amount min for_ w = Ok (r, w') -> B <= bal w'.
Proof.
  intros Hf Hc p0 rest amount min for_ w r w' B HI HB HB' H. unfold convert_for_internal, ecall in H. rewrite Hc in H.
  apply bind_Ok in H as ([to am] & w1 & H1 & H).
  eapply path_safe in H1 as (I1 & B1 & B1'); [|exact Hf|exact Hc|exact HI|exact HB|exact HB'].
  cbn [fst snd] in B1.
  apply bind_Ok in H as (sc & w2 & H2 & H). apply this_Ok in H2 as [_ ->].
  apply bind_Ok in H as (u & w2 & H2 & H). mrun H.
  destruct (default false _).
  - pose proof (N_call w1 to (MWithdrawTo am for_) I1 ltac:(done) ltac:(done)) as A.
    pose proof (Hf _ _ _ _ _ _ _ _ I1 A H2) as B2. cbn [cost] in B2.
    destruct (decide (to = T)) as [->|]; [rewrite decide_True in B2 by done|rewrite decide_False in B2 by tauto]; lia.
  - pose proof (N_call w1 to (MTransfer for_ am (Some data_none)) I1 ltac:(done) ltac:(done)) as A.
    pose proof (Hf _ _ _ _ _ _ _ _ I1 A H2) as B2. cbn [cost] in B2.
    destruct (decide (to = T)) as [->|]; [rewrite decide_True in B2 by done|rewrite decide_False in B2 by tauto]; lia.
Qed.

Lemma bal_upd_other w a sc evs : a <> T -> bal (wupd a sc evs w) = bal w.
Proof. intros H. unfold bal. by rewrite balance_of_upd, decide_False. Qed.

Theorem net_exec fuel : safe_calls fuel.
Proof.
  induction fuel as [|f IH]; intros ro s t v m w r w' HI HA H; [done|].
  apply exec_inv in H as (w1 & H1 & _ & H); [|apply exec_keeps].
  pose proof (sinv_icx _ _ _ _ _ _ _ _ H1 HI) as HI1.
  assert (bal w1 = bal w) as E1 by (unfold bal; by rewrite (balance_of_icx _ _ _ _ _ _ _ _ H1)).
  rewrite <- E1. clear E1.
  destruct H as [(n & -> & -> & ->)|(sc & Ht & Hsc & Hro & Hpay & Hh & _ & H)]; [cbn [cost]; lia|].
  pose proof (move_icx_nonneg _ _ _ _ _ _ H1) as Hv. clear H1 HI w.
  set (R := fun w w' => sinv w -> sinv w' /\ bal w <= bal w').
  assert (forall w, R w w) as Rr by (intros ? ?; split; [done|lia]).
  assert (forall w1 w2 w3, R w1 w2 -> R w2 w3 -> R w1 w3) as Rt.
  { intros w2 w3 w4 A B C. destruct (A C) as [A1 A2]. destruct (B A1) as [B1 B2]. split; [done|lia]. }
  destruct (decide (t = T)) as [->|HtT]; [|destruct (decide (t = N)) as [->|HtN]].
  - (* the token runs *)
    pose proof (sinv_token _ HI1) as HT1. pose proof N_not_T as HNT.
    assert (token_kind (s_kind sc) = true) as Hk.
    { unfold is_token, kind_at in HT1. rewrite Hsc in HT1. cbn in HT1. by destruct HT1 as [[= ->]|[[= ->]|[= ->]]]. }
    assert (s_kind sc <> KAdv) as Hadv by (by intros E; rewrite E in Hk). specialize (Hh Hadv).
    assert (forall w, bal w = balance_of w T N) as Eb by done.
    set (c := frame ro s T v m (s_kind sc)) in *.
    assert (forall sc' evs, lstep (s_kind sc) c m sc sc' evs -> sinv (wupd T sc' evs w1)) as Hloc.
    { intros sc' evs Hl. by eapply (sinv_local _ _ no_zero w1 _ c). }
    assert (forall w2 sc2 to v' m', sinv w2 -> w_scores w2 !! T = Some sc2 -> s_kind sc2 = s_kind sc ->
      hcall (s_kind sc) c m sc2 to v' m' -> scall T to v' m') as Hcall.
    { intros. by eapply (scall_hcall _ _ w2 _ c). }
    destruct (transfer_dec m) as [(to & x & d & ->)|Hn1].
    { eapply token_transfer_inv in Hh as (Hx & Hf1 & Hf2 & _ & r2 & w2 & E & ->); [|done|exact Hsc].
      cbn [c_sender c frame] in *. change (bal (wlog _ _ w2)) with (bal w2).
      change (c_self c) with T in *. match type of E with _ ?x = _ => set (w1' := x) in E end.
      assert (sinv w1') as HI2. { apply Hloc. exact (L_move _ c _ sc to x d Hk eq_refl Hx Hf1 Hf2). }
      assert (bal w1' = bal w1 - (if decide (N = s) then x else 0) + (if decide (N = to) then x else 0)) as E1.
      { unfold bal, w1'. rewrite balance_of_upd, decide_True, !balance_add, (balance_of_sc _ _ _ _ Hsc) by done.
        repeat case_decide; lia. }
      assert (bal w1' - (if decide (N = to) then x else 0) <= bal w2) as E2.
      { destruct (is_contract to) eqn:Ec.
        - assert (scall T to 0 (MTokenFallback s x (default data_none d))) as HA2.
          { eapply Hcall; [exact HI1|exact Hsc|done|]. exact (H_fallback _ c _ sc to x d Hk eq_refl Ec Hf2). }
          pose proof (IH _ _ _ _ _ _ _ _ HI2 HA2 E) as G. cbn [cost] in G. case_decide as E3.
          + destruct E3 as [_ <-]. rewrite decide_True by done. lia.
          + rewrite (decide_False (P := N = to)) by (intros <-; tauto). lia.
        - apply ret_Ok in E as [_ ->]. destruct (decide (N = to)); lia. }
      cbn [cost]. destruct (decide (N = s)) as [->|]; [rewrite decide_True by done|rewrite decide_False by (intros [? _]; congruence)]; lia. }
    assert ((s_kind sc = KIcx /\ exists x to, is_withdraw m c x to) \/ ~ (s_kind sc = KIcx /\ exists x to, is_withdraw m c x to)) as [[Kx (x & to & Hw)]|Hn2].
    { destruct (decide (s_kind sc = KIcx)); [|tauto]. destruct (withdraw_dec m c) as [?|G]; [tauto|]. right. intros (_ & x & to & Hw). by eapply G. }
    { rewrite Kx in Hh. eapply withdraw_inv in Hh as (Hx & r2 & w2 & E & ->); [|exact Hw|exact Hsc].
      cbn [c_sender c frame] in *. change (bal (wlog _ _ w2)) with (bal w2).
      change (c_self c) with T in *. match type of E with _ ?x = _ => set (w1' := x) in E end.
      assert (sinv w1') as HI2. { apply Hloc. exact (L_burn _ c _ sc x to Kx Hw Hx). }
      assert (scall T to x MFallback) as HA2.
      { eapply Hcall; [exact HI1|exact Hsc|done|]. eapply (H_icx_out _ c _ _ x to); [done|done|lia]. }
      pose proof (IH _ _ _ _ _ _ _ _ HI2 HA2 E) as G. cbn [cost] in G.
      assert (bal w1' = bal w1 - (if decide (N = s) then x else 0)) as E1.
      { unfold bal, w1'. rewrite balance_of_upd, decide_True, balance_set_supply, balance_add, (balance_of_sc _ _ _ _ Hsc) by done.
        case_decide; lia. }
      assert (cost s T m = if decide (s = N) then x else 0) as ->.
      { destruct Hw as [->|[-> _]]; cbn [cost]; repeat case_decide; try lia; tauto. }
      repeat case_decide; try congruence; lia. }
    assert ((s_kind sc = KFlex /\ exists from x, m = MDestroy from x) \/ ~ (s_kind sc = KFlex /\ exists from x, m = MDestroy from x)) as [[Kx (from & x & ->)]|Hn3].
    { destruct (decide (s_kind sc = KFlex)); [|tauto]. destruct (destroy_dec m) as [?|G]; tauto. }
    { rewrite Kx in Hh. eapply destroy_inv in Hh as (Hx & Ho & ->); [|exact Hsc].
      assert (kind_at w0 T = Some KFlex) as K0.
      { destruct HT as [E|[E|E]]; [| |done]; pose proof (si_kind _ _ _ HI1 _ _ E) as E'; unfold kind_at in E'; rewrite Hsc in E'; cbn in E'; congruence. }
      assert (s = from) as <-.
      { cbn in Ho. destruct Ho as [?|Ho]; [done|]. destruct HA as (_ & _ & HA).
        pose proof (si_owner _ _ _ HI1 _ (GT K0)) as EO. unfold owner_of in EO. rewrite (var_sc _ _ _ _ _ Hsc) in EO.
        destruct HA as [_ HA]; [rewrite Ho, EO; apply (GT K0)|]. by rewrite (HA _ _ eq_refl). }
      unfold bal. rewrite balance_of_upd, decide_True, balance_set_supply, balance_add, (balance_of_sc _ _ _ _ Hsc) by done.
      cbn [cost]. repeat case_decide; subst; try lia. tauto. }
    assert (0 <= cost s T m) as Hcost by (unfold cost; destruct m; try lia; case_decide; lia).
    enough (bal w1 <= bal w') by lia.
    assert (R w1 w') as HR; [|by apply HR].
    refine (esteps_rel adv f (s_kind sc) c m R Rr Rt _ _ w1 w' sc Hsc eq_refl H).
    + intros w2 sc2 sc' evs Hs2 Hk2 Hl HI2. split.
      { by eapply (sinv_local _ _ no_zero w2 _ c). }
      unfold bal. rewrite balance_of_upd, decide_True, (balance_of_sc _ _ _ _ Hs2) by done. clear Hh.
      rewrite <- Hk2 in *.
      destruct Hl; try (unfold balance; cbn; lia); rewrite ?balance_set_supply, ?balance_add.
      * exfalso. eauto.
      * cbn. case_decide; lia.
      * exfalso. apply Hn2. eauto.
      * case_decide; lia.
      * exfalso. apply Hn3. eauto.
    + intros ro' w2 w3 sc2 to v' m' r' Hs2 Hk2 [?|Hc] _ E HI2; [done|].
      pose proof (Hcall _ _ _ _ _ HI2 Hs2 Hk2 Hc) as HA2. split; [by eapply sinv_exec|].
      pose proof (IH _ _ _ _ _ _ _ _ HI2 HA2 E) as G.
      assert (cost T to m' = 0) as E0; [|cbn in G; lia].
      destruct Hc; cbn [cost]; try done; try (rewrite decide_False; [done|intros [? _]; congruence]).
      * by destruct m'.
      * exfalso. eauto.
  - (* the network runs *)
    pose proof (sinv_net _ HI1) as HN1. pose proof N_not_T as HNT.
    assert (s_kind sc = KNet) as Hk by (unfold kind_at in HN1; rewrite Hsc in HN1; cbn in HN1; congruence).
    rewrite Hk in *. specialize (Hh ltac:(done)).
    assert (0 <= cost s N m) as Hcost by (unfold cost; destruct m; try lia; case_decide; lia).
    set (c := frame ro s N v m KNet) in *.
    destruct (is_readonly m) eqn:Em.
    { assert (w' = w1) as ->; [|lia].
      clear - H Em. assert (c_ro c = true) as F by (unfold c, frame; cbn; rewrite Em; apply orb_true_r).
      induction H as [w|w w2 w3 H1 H2 IH2]; [done|]. enough (w2 = w) by (by subst).
      destruct H1 as [w sc1 sc' evs Hs Hl Hro'|ro' w w2 sc1 to v' m' r' Hs Hc Hro' E].
      - apply lstep_writes in Hl; [|done]. congruence.
      - rewrite Hro' in E by done. by eapply exec_readonly. }
    destruct (convert_target m s) as [[[p x] a]|] eqn:Ec.
    { eapply convert_inv in Hh as (p0 & rest & r1 & w2 & z & Hp & Hvp & Hx & Ha & Ha' & Hreg & Ex & Ei & _); [|exact Ec|exact Hsc].
      cbn [c_self c c_value frame] in Ex.
      assert (scall N p0 v MFallback) as HA2.
      { split. { intros ->. unfold kind_at in HN. by rewrite no_zero in HN. }
        split. { intros n E. unfold kind_at in HN. rewrite E, no_eoa in HN. done. }
        by intros _. }
      pose proof (IH _ _ _ _ _ _ _ _ HI1 HA2 Ex) as G. cbn [cost] in G.
      eapply (internal_safe f c IH eq_refl p0 rest _ _ _ w2 _ w' (bal w1)) in Ei; [lia| | |lia].
      - by eapply sinv_exec.
      - cbn [c_value c frame]. case_decide as E; [|lia]. subst p0.
        destruct (token_sc _ _ (sinv_token _ HI1)) as (sc1 & Hsc1 & Hk1).
        eapply exec_deposit in Ex as (_ & w3 & Hm & ->); [|exact Hsc1|done|by eapply T_contract].
        unfold bal. rewrite balance_of_upd, decide_True, balance_set_supply, balance_add, (balance_of_sc _ _ _ _ Hsc1), decide_True by done. lia. }
    destruct m; try done.
    + cbn in Hh. unfold done_, transferOwnerShip, require_owner_only in Hh. mrun Hh. exfalso.
      destruct (guarded_admin _ _ _ _ _ c _ _ _ HI1 GN Hsc HA eq_refl). cbn in *. congruence.
    + cbn in Hh. unfold done_, acceptOwnerShip in Hh. mrun Hh. exfalso.
      destruct (guarded_admin _ _ _ _ _ c _ _ _ HI1 GN Hsc HA eq_refl). cbn in *. congruence.
    + cbn in Hh. unfold done_, withdrawTokens, require_owner_only in Hh.
      apply bind_Ok in Hh as (u & w2 & Hh & _). apply bind_Ok in Hh as (u2 & w3 & Hh & _). mrun Hh. exfalso.
      destruct (guarded_admin _ _ _ _ _ c _ _ _ HI1 GN Hsc HA eq_refl). cbn in *. congruence.
    + eapply net_fallback_inv in Hh as [[_ ->]|(rest & rq & z & y & _ & _ & Hp & _ & Hz & Hz0 & _ & Ei)]; [lia|].
      cbn [c_sender c frame] in Ei.
      eapply (internal_safe f c IH eq_refl s rest _ _ _ w1 _ w' (bal w1 - cost s N (MTokenFallback from v0 d))) in Ei; [lia|done| |lia].
      cbn [cost]. repeat case_decide; try lia; tauto.
    + cbn in Hh. unfold done_, registerIcxToken, require_owner_only in Hh. mrun Hh. exfalso.
      destruct (guarded_admin _ _ _ _ _ c _ _ _ HI1 GN Hsc HA eq_refl). cbn in *. congruence.
  - (* neither *)
    assert (0 <= cost s t m) as Hcost by (unfold cost; destruct m; try lia; case_decide; lia).
    enough (bal w1 <= bal w') by lia.
    assert (R w1 w') as HR; [|by apply HR].
    refine (esteps_rel adv f (s_kind sc) (frame ro s t v m (s_kind sc)) m R Rr Rt _ _ w1 w' sc Hsc eq_refl H).
    + cbn. intros w2 sc2 sc' evs Hs2 Hk2 Hl HI2. split; [|rewrite bal_upd_other by done; lia].
      eapply (sinv_local _ _ no_zero w2 _ (frame ro s t v m (s_kind sc))); cbn; done.
    + cbn. intros ro' w2 w3 sc2 to v' m' r' Hs2 Hk2 Hc _ E HI2.
      assert (scall t to v' m') as HA2.
      { destruct Hc as [Hc|Hc].
        - eapply scall_adv; [exact HI2|done|exact Hs2|congruence].
        - eapply (scall_hcall _ _ w2 _ (frame ro s t v m (s_kind sc))); [exact HA|done|done|exact Hs2|done|exact Hc]. }
      split; [by eapply sinv_exec|]. pose proof (IH _ _ _ _ _ _ _ _ HI2 HA2 E) as G. rewrite cost_other in G by done. lia.
Qed.

Theorem net_tokens_tx fuel t r w' : tx_sender t = EOA n0 -> run_tx adv fuel t w0 = Ok (r, w') -> bal w0 <= bal w'.
Proof.
  intros Hs H. enough (sinv w0 -> sinv w' /\ bal w0 <= bal w') as G by (apply G; by apply sinv_start).
  assert (T <> EOA n0 /\ N <> EOA n0) as [HTn HNn].
  { split; intros ->; [destruct HT as [E|[E|E]]|pose proof HN as E]; unfold kind_at in E; by rewrite no_eoa in E. }
  assert (w_scores w0 !! T <> None) as HTs.
  { intros E. destruct HT as [F|[F|F]]; unfold kind_at in F; by rewrite E in F. }
  eapply (tx_rel adv (fun w w' => sinv w -> sinv w' /\ bal w <= bal w')); [..|exact H].
  - intros w HI. split; [done|lia].
  - intros w2 w3 w4 A B C. destruct (A C) as [A1 A2]. destruct (B A1) as [B1 B2]. split; [done|lia].
  - intros n to v m -> E HI. cbn in Hs. injection Hs as ->.
    pose proof (scall_sender w0 n0 no_eoa no_zero to v m) as HA. split; [by eapply sinv_exec|].
    pose proof (net_exec _ _ _ _ _ _ _ _ _ HI HA E) as G. rewrite cost_other in G by done. lia.
  - intros n a i -> Ha Hf _ HI. split; [by apply sinv_deploy|]. rewrite bal_upd_other; [lia|]. congruence.
  - intros n a i w1 sc cn wt sc' evs -> Hf Hs1 Hk Hl HI. split.
    + eapply (sinv_local _ _ no_zero w1 _ (Ctx (SCORE a) (EOA n) 0 false)); try done. cbn in Hs |- *. rewrite Hs. apply scall_sender; done.
    + rewrite bal_upd_other; [lia|]. congruence.
  - intros n a i ro w1 w2 sc to m' r0 -> Hf Hs1 Hk Hm E HI.
    assert (scall (SCORE a) to 0 m') as HA.
    { split. { intros Ea. rewrite Ea in Hs1. by rewrite (si_zero _ _ _ HI) in Hs1. }
      split; [done|]. intros _. by destruct m'. }
    split; [by eapply sinv_exec|].
    pose proof (net_exec _ _ _ _ _ _ _ _ _ HI HA E) as G. assert (cost (SCORE a) to m' = 0) by (by destruct m'). lia.
Qed.
End tokens.
End net.
