(* Message calls as trees of local steps; induction principles; read-only calls; deployments. *)
From Coq Require Import String Ascii ZArith Lia.
From stdpp Require Import base countable list numbers strings gmap relations.
From Verif Require Import Res FormulaConsts FormulaModel Codec World WorldBasics WorldSteps.
Local Open Scope Z_scope.
Local Open Scope M_scope.

Section exec.
Variable adv : adversary.
Notation exec := (exec adv).

(* a step of the frame c, executing message m as a contract of kind k; nested calls have fuel f *)
Inductive estep (f : nat) (k : kind) (c : ctx) (m : msg) : world -> world -> Prop :=
| es_local w sc sc' evs :
    w_scores w !! c_self c = Some sc -> lstep k c m sc sc' evs -> (k = KAdv -> c_ro c = false) ->
    estep f k c m w (wupd (c_self c) sc' evs w)
| es_call ro w w' sc to v m' r :
    w_scores w !! c_self c = Some sc -> k = KAdv \/ hcall k c m sc to v m' ->
    (c_ro c = true -> ro = true) ->
    exec f ro (c_self c) to v m' w = Ok (r, w') -> estep f k c m w w'.
Definition esteps f k c m := rtc (estep f k c m).

Lemma steps_esteps f k c m w w' : k <> KAdv -> steps (exec f) k c m w w' -> esteps f k c m w w'.
Proof.
  intros Hk H. induction H as [|w w1 w2 H1 H2 IH]; [apply rtc_refl|].
  eapply rtc_l; [|exact IH]. destruct H1; [by eapply es_local|].
  eapply es_call; eauto.
Qed.

Lemma estep_dom f k c m w w' a sc : keeps_contracts (exec f) ->
  estep f k c m w w' -> w_scores w !! a = Some sc -> exists sc', w_scores w' !! a = Some sc'.
Proof.
  intros Hdom H Ha. destruct H as [w sc0 sc' evs H1 H2|ro w w' sc0 to v m' r H1 H2 H3].
  - unfold wupd. cbn. destruct (decide (a = c_self c)) as [->|Hne].
    + eexists. apply lookup_insert.
    + exists sc. by rewrite lookup_insert_ne.
  - by eapply Hdom.
Qed.
Lemma esteps_dom f k c m w w' a sc : keeps_contracts (exec f) ->
  esteps f k c m w w' -> w_scores w !! a = Some sc -> exists sc', w_scores w' !! a = Some sc'.
Proof.
  intros Hdom H. revert sc. induction H as [|w w1 w2 H1 H2 IH]; [eauto|].
  intros sc Ha. eapply estep_dom in H1 as [sc1 ?]; [|exact Hdom|exact Ha]. eauto.
Qed.

Lemma run_prog_steps f c m p : keeps_contracts (exec f) -> forall w sc r w',
  w_scores w !! c_self c = Some sc -> run_prog (exec f) c p w = Ok (r, w') -> esteps f KAdv c m w w'.
Proof.
  intros Hdom. induction p as [r0| |ro to v m' k IH|ro to v m' k IH|k IH|z k IH|a k IH|z k IH];
    intros w sc r w' Hsc H; cbn in H.
  - apply ret_Ok in H as [_ ->]. apply rtc_refl.
  - done.
  - apply bind_Ok in H as (a & w1 & H1 & H2).
    eapply rtc_l; [eapply es_call; [exact Hsc|by left| |exact H1]; by intros ->; rewrite orb_true_r|].
    destruct (Hdom _ _ _ _ _ _ _ _ _ _ H1 Hsc) as [sc1 ?]. by eapply IH.
  - destruct (exec f (ro || c_ro c) (c_self c) to v m' w) as [[a w1]|e] eqn:H1.
    + eapply rtc_l; [eapply es_call; [exact Hsc|by left| |exact H1]; by intros ->; rewrite orb_true_r|].
      destruct (Hdom _ _ _ _ _ _ _ _ _ _ H1 Hsc) as [sc1 ?]. by eapply IH.
    + by eapply IH.
  - mrun H. by eapply IH.
  - mrun H. bools. eapply rtc_l; [eapply es_local; [exact Hsc|by eapply (L_store _ _ _ _ z)|done]|].
    eapply IH; [|exact H]. apply lookup_wput.
  - by eapply IH.
  - mrun H. bools. eapply rtc_l; [eapply es_local; [exact Hsc|by eapply (L_other _ _ _ _ z)|done]|].
    unfold wupd. cbn. rewrite insert_id by done. eapply IH; [|exact H]. done.
Qed.

(* the frame of a call: read-only if the context or the method is *)
Definition frame (ro : bool) (s t : addr) (v : Z) (m : msg) (k : kind) : ctx :=
  Ctx t s v (match k with KAdv => ro | _ => ro || is_readonly m end).

Lemma exec_inv f ro s t v m w r w' : keeps_contracts (exec f) ->
  exec (S f) ro s t v m w = Ok (r, w') ->
  exists w1, move_icx s t v w = Ok (tt, w1) /\ (ro = true -> v = 0) /\
    ((exists n, t = EOA n /\ m = MFallback /\ w' = w1) \/
     (exists sc, is_contract t = true /\ w_scores w1 !! t = Some sc /\
        (s_kind sc <> KAdv -> ro = true -> is_readonly m = true) /\
        (is_payable (s_kind sc) m = true \/ v = 0) /\
        (s_kind sc <> KAdv -> honest_handler (exec f) (s_kind sc) (frame ro s t v m (s_kind sc)) m w1 = Ok (r, w')) /\
        (s_kind sc = KAdv -> run_prog (exec f) (Ctx t s v ro) (adv t (Ctx t s v ro) m) w1 = Ok (r, w')) /\
        esteps f (s_kind sc) (frame ro s t v m (s_kind sc)) m w1 w')).
Proof.
  intros Hdom H. cbn [World.exec] in H. apply bind_Ok in H as (u & w0 & H0 & H). apply require_Ok in H0 as [Hro ->].
  apply bind_Ok in H as ([] & w1 & H1 & H). exists w1. split; [done|].
  split. { intros ->. cbn in Hro. by apply negb_true_iff, negb_false_iff, Z.eqb_eq in Hro. }
  destruct t as [n|n].
  - left. exists n. destruct m; try done. apply ret_Ok in H as [_ ->]. done.
  - right. apply bind_Ok in H as (sc & w2 & H2 & H). apply get_score_Ok in H2 as [Hsc ->].
    exists sc. split; [done|]. split; [done|].
    destruct (decide (s_kind sc = KAdv)) as [K|K].
    + rewrite K in *. split; [done|]. split; [by left|]. split; [done|]. split; [done|]. by eapply run_prog_steps.
    + assert (exists u w3 w4, require (is_payable (s_kind sc) m || (v =? 0)) "not payable" w1 = Ok (u, w3) /\
        require (negb (ro && negb (is_readonly m))) "read-only" w3 = Ok (u, w4) /\
        honest_handler (exec f) (s_kind sc) (Ctx (SCORE n) s v (ro || is_readonly m)) m w4 = Ok (r, w')) as (u' & w3 & w4 & A & B & C).
      { destruct (s_kind sc) eqn:K'; try done;
          apply bind_Ok in H as ([] & w3 & A & H); apply bind_Ok in H as ([] & w4 & B & H); exists tt, w3, w4; done. }
      apply require_Ok in A as [A ->]. apply require_Ok in B as [B ->].
      assert (frame ro s (SCORE n) v m (s_kind sc) = Ctx (SCORE n) s v (ro || is_readonly m)) as F.
      { unfold frame. by destruct (s_kind sc). }
      rewrite F. split.
      { intros _ ->. cbn in B. by apply negb_true_iff, negb_false_iff in B. }
      split. { apply orb_true_iff in A as [A|A]; [by left|right; by apply Z.eqb_eq]. }
      split; [done|]. split; [done|].
      apply steps_esteps; [done|]. eapply honest_handler_ok; done.
Qed.

Lemma move_icx_scores s t v w u w' : move_icx s t v w = Ok (u, w') -> w_scores w' = w_scores w.
Proof. intros H. by apply move_icx_Ok in H as [[_ ->]|(_ & _ & ->)]. Qed.
Lemma move_icx_log s t v w u w' : move_icx s t v w = Ok (u, w') -> w_log w' = w_log w.
Proof. intros H. by apply move_icx_Ok in H as [[_ ->]|(_ & _ & ->)]. Qed.

Lemma exec_keeps fuel : keeps_contracts (exec fuel).
Proof.
  induction fuel as [|f IH]; intros ro s t v m w r w' a sc H Ha; [done|].
  apply exec_inv in H as (w1 & H1 & _ & H); [|done].
  rewrite <- (move_icx_scores _ _ _ _ _ _ H1) in Ha.
  destruct H as [(n & _ & _ & ->)|(sc0 & _ & _ & _ & _ & _ & _ & H)]; [eauto|].
  by eapply esteps_dom.
Qed.

(* local steps keep the kind *)
Lemma lstep_kind k c m sc sc' evs : lstep k c m sc sc' evs -> s_kind sc' = s_kind sc.
Proof. by destruct 1. Qed.

Definition same_kinds (w w' : world) : Prop := forall a sc, w_scores w !! a = Some sc ->
  exists sc', w_scores w' !! a = Some sc' /\ s_kind sc' = s_kind sc.
Lemma same_kinds_trans w1 w2 w3 : same_kinds w1 w2 -> same_kinds w2 w3 -> same_kinds w1 w3.
Proof.
  intros H1 H2 a sc Ha. destruct (H1 _ _ Ha) as (sc1 & Ha1 & K1). destruct (H2 _ _ Ha1) as (sc2 & Ha2 & K2).
  exists sc2. split; congruence.
Qed.
Lemma wupd_same_kinds c k m sc sc' evs w :
  w_scores w !! c_self c = Some sc -> lstep k c m sc sc' evs -> same_kinds w (wupd (c_self c) sc' evs w).
Proof.
  intros Hsc Hl a sc0 Ha. unfold wupd. cbn. destruct (decide (a = c_self c)) as [->|Hne].
  - rewrite lookup_insert. exists sc'. split; [done|]. apply lstep_kind in Hl. congruence.
  - rewrite lookup_insert_ne by done. eauto.
Qed.

(* checks at the start of a method that are separated from its effect by a nested call *)
Definition entry_guard (k : kind) (c : ctx) (m : msg) (sc : score) : Prop :=
  match k, m with
  | KConv, MAddConnector _ _ _ => c_sender c = s_owner sc
  | KConv, MUpdateRegistry => s_allow_reg sc = true \/ c_sender c = s_owner sc
  | _, _ => True
  end.
Lemma handler_guard f k c m w r w' sc :
  honest_handler (exec f) k c m w = Ok (r, w') -> w_scores w !! c_self c = Some sc -> entry_guard k c m sc.
Proof.
  intros H Hsc. unfold entry_guard. destruct k; try done. destruct m; try done.
  - cbn in H. unfold done_, addConnector, require_owner_only in H.
    apply bind_Ok in H as (u & w1 & H & _). apply bind_Ok in H as (u1 & w2 & H & _).
    mrun H. done.
  - cbn in H. unfold done_, updateRegistry in H.
    apply bind_Ok in H as (u & w1 & H & _). apply bind_Ok in H as (sc0 & w2 & H1 & H).
    mrun H1. apply bind_Ok in H as (u1 & w3 & H & _). mrun H. bools. destruct Hreq as [?|Hreq]; [by left|].
    right. by apply bool_decide_eq_true in Hreq.
Qed.
(* the frame was entered in a state satisfying Inv *)
Definition entered (Inv : world -> Prop) (k : kind) (c : ctx) (m : msg) : Prop :=
  exists w sc, Inv w /\ w_scores w !! c_self c = Some sc /\ s_kind sc = k /\ entry_guard k c m sc.

(* ---------------------------------------------------------------- induction ---- *)
(* Inv: invariant; A: calls that can happen; R: what every piece of execution does *)
Section ind.
Variable Inv : world -> Prop.
Variable A : addr -> addr -> Z -> msg -> Prop.
Variable R : world -> world -> Prop.
Hypothesis R_refl : forall w, R w w.
Hypothesis R_trans : forall w1 w2 w3, R w1 w2 -> R w2 w3 -> R w1 w3.
Hypothesis R_inv : forall w w', Inv w -> R w w' -> Inv w'.
Hypothesis R_icx : forall s t v m w w',
  A s t v m -> Inv w -> move_icx s t v w = Ok (tt, w') -> R w w'.
Hypothesis R_local : forall w k c m sc sc' evs,
  A (c_sender c) (c_self c) (c_value c) m -> Inv w ->
  is_contract (c_self c) = true -> w_scores w !! c_self c = Some sc -> s_kind sc = k ->
  (is_payable k m = true \/ c_value c = 0) /\ entered Inv k c m -> 0 <= c_value c ->
  lstep k c m sc sc' evs -> R w (wupd (c_self c) sc' evs w).
Hypothesis A_call : forall w k c m sc to v m',
  A (c_sender c) (c_self c) (c_value c) m -> Inv w ->
  is_contract (c_self c) = true -> w_scores w !! c_self c = Some sc -> s_kind sc = k ->
  hcall k c m sc to v m' -> A (c_self c) to v m'.
Hypothesis A_adv : forall w a sc to v m,
  Inv w -> is_contract a = true -> w_scores w !! a = Some sc -> s_kind sc = KAdv -> A a to v m.

Lemma esteps_ind_aux f k c m :
  (forall ro s t v m w r w', A s t v m -> Inv w -> exec f ro s t v m w = Ok (r, w') -> R w w' /\ same_kinds w w') ->
  A (c_sender c) (c_self c) (c_value c) m -> is_contract (c_self c) = true ->
  (is_payable k m = true \/ c_value c = 0) /\ entered Inv k c m -> 0 <= c_value c ->
  forall w w2, Inv w -> (exists sc, w_scores w !! c_self c = Some sc /\ s_kind sc = k) ->
    esteps f k c m w w2 -> R w w2 /\ same_kinds w w2.
Proof.
  intros IH HA Ht Hpay Hval w w2 HI1 Hk Hst.
  induction Hst as [w|w w2 w3 H1 H2 IH2].
  - split; [apply R_refl|]. intros a sc Ha. eauto.
  - assert (R w w2 /\ same_kinds w w2) as [RR KK].
    { destruct Hk as (sc & Hsc & Hk).
      destruct H1 as [w sc1 sc' evs Hs Hl Hro|ro' w w2 sc1 to v' m' r' Hs Hc Hro E].
      - assert (sc1 = sc) as -> by congruence. split.
        + by eapply R_local.
        + by eapply wupd_same_kinds.
      - assert (sc1 = sc) as -> by congruence.
        eapply IH; [|done|exact E]. destruct Hc as [Hc|Hc].
        + eapply A_adv; [exact HI1|done|exact Hs|congruence].
        + by eapply A_call. }
    pose proof (R_inv _ _ HI1 RR) as HI2. destruct Hk as (sc & Hsc & Hk).
    destruct (KK _ _ Hsc) as (sc2 & Hsc2 & Hk2).
    destruct IH2 as [RR2 KK2]; [done|exists sc2; split; [done|congruence]|].
    split; [by eapply R_trans|by eapply same_kinds_trans].
Qed.

Lemma exec_ind_kinds fuel : forall ro s t v m w r w',
  A s t v m -> Inv w -> exec fuel ro s t v m w = Ok (r, w') -> R w w' /\ same_kinds w w'.
Proof.
  induction fuel as [|f IH]; intros ro s t v m w r w' HA HI H; [done|].
  apply exec_inv in H as (w1 & H1 & _ & H); [|apply exec_keeps].
  pose proof (R_icx _ _ _ _ _ _ HA HI H1) as RR. pose proof (R_inv _ _ HI RR) as HI1.
  assert (same_kinds w w1) as K1.
  { intros a sc Ha. rewrite (move_icx_scores _ _ _ _ _ _ H1). eauto. }
  destruct H as [(n & _ & _ & ->)|(sc0 & Ht & Hsc0 & _ & Hpay & Hh & _ & H)]; [done|].
  assert (entered Inv (s_kind sc0) (frame ro s t v m (s_kind sc0)) m) as He.
  { exists w1, sc0. repeat split; [done|done|]. destruct (decide (s_kind sc0 = KAdv)) as [K|K]; [by rewrite K|].
    by eapply handler_guard; [apply Hh|]. }
  eapply esteps_ind_aux in H as [RR2 KK2]; [|exact IH|exact HA|exact Ht|exact (conj Hpay He)|apply move_icx_Ok in H1; cbn; lia|exact HI1|by eauto].
  split; [by eapply R_trans|by eapply same_kinds_trans].
Qed.

Theorem exec_ind fuel ro s t v m w r w' :
  A s t v m -> Inv w -> exec fuel ro s t v m w = Ok (r, w') -> R w w'.
Proof. intros. by eapply exec_ind_kinds. Qed.

Theorem esteps_ind f k c m w w' :
  A (c_sender c) (c_self c) (c_value c) m -> is_contract (c_self c) = true ->
  (is_payable k m = true \/ c_value c = 0) /\ entered Inv k c m -> 0 <= c_value c ->
  Inv w -> (exists sc, w_scores w !! c_self c = Some sc /\ s_kind sc = k) ->
  esteps f k c m w w' -> R w w'.
Proof. intros. eapply esteps_ind_aux; eauto. apply exec_ind_kinds. Qed.
End ind.

Lemma exec_kinds fuel ro s t v m w r w' : exec fuel ro s t v m w = Ok (r, w') -> same_kinds w w'.
Proof.
  intros H. eapply (exec_ind_kinds (fun _ => True) (fun _ _ _ _ => True) (fun _ _ => True)) in H; try done.
  by destruct H.
Qed.

(* ---------------------------------------------------------------- read-only ---- *)
Lemma lstep_writes k c m sc sc' evs : lstep k c m sc sc' evs -> k <> KAdv -> is_readonly m = false.
Proof.
  destruct 1; intros Hk; try done; subst; try done;
    repeat match goal with H : _ \/ _ |- _ => destruct H | H : _ /\ _ |- _ => destruct H end; by subst.
Qed.
Theorem exec_readonly fuel : forall s t v m w r w', exec fuel true s t v m w = Ok (r, w') -> w' = w.
Proof.
  induction fuel as [|f IH]; intros s t v m w r w' H; [done|].
  apply exec_inv in H as (w1 & H1 & Hv & H); [|apply exec_keeps]. rewrite (Hv eq_refl) in *.
  apply move_icx_Ok in H1 as [[_ ->]|H1]; [|lia].
  destruct H as [(n & _ & _ & ->)|(sc0 & _ & Hsc0 & Hro & _ & _ & _ & H)]; [done|].
  assert (c_ro (frame true s t 0 m (s_kind sc0)) = true) as F by (by unfold frame; destruct (s_kind sc0)).
  clear - H IH Hro F. induction H as [w|w w2 w3 H1 H2 IH2]; [done|].
  enough (w2 = w) by congruence.
  destruct H1 as [w sc1 sc' evs Hs Hl Hro'|ro' w w2 sc1 to v' m' r' Hs Hc Hro' E].
  - destruct (decide (s_kind sc0 = KAdv)) as [K|K].
    + specialize (Hro' K). congruence.
    + specialize (Hro K eq_refl). apply lstep_writes in Hl; [|done]. congruence.
  - rewrite Hro' in E by done. by eapply IH.
Qed.
(* a read-only method of a genuine contract, called in any context *)
Theorem exec_view fuel ro s t v m w r w' sc :
  w_scores w !! t = Some sc -> s_kind sc <> KAdv -> is_contract t = true -> is_readonly m = true ->
  exec fuel ro s t v m w = Ok (r, w') -> w' = w.
Proof.
  intros Hsc Hk Ht Hm H. destruct fuel as [|f]; [done|].
  apply exec_inv in H as (w1 & H1 & _ & H); [|apply exec_keeps].
  destruct H as [(n & -> & _ & _)|(sc0 & _ & Hsc0 & Hro & Hpay & _ & _ & H)]; [done|].
  assert (sc0 = sc) as -> by (rewrite (move_icx_scores _ _ _ _ _ _ H1) in Hsc0; congruence).
  assert (v = 0) as ->.
  { destruct Hpay as [Hp|]; [|done]. by destruct (s_kind sc), m. }
  apply move_icx_Ok in H1 as [[_ ->]|H1]; [|lia].
  assert (c_ro (frame ro s t 0 m (s_kind sc)) = true) as F.
  { unfold frame. rewrite Hm. destruct (s_kind sc); cbn; try done; apply orb_true_r. }
  clear - H F Hm Hk. induction H as [w|w w2 w3 H1 H2 IH2]; [done|].
  enough (w2 = w) by (by subst).
  destruct H1 as [w sc1 sc' evs Hs Hl Hro'|ro' w w2 sc1 to v' m' r' Hs Hc Hro' E].
  - apply lstep_writes in Hl; [|done]. congruence.
  - rewrite Hro' in E by done. by eapply exec_readonly.
Qed.

(* -------------------------------------------------------------- deployments ---- *)
Definition init_token (k : kind) (name symbol : string) (supply decimals : Z) (d : addr) : score :=
  set_bal {[ d := supply ]} (set_decimals decimals (set_supply supply (set_symbol symbol (set_name name (blank k))))).
Definition init_owned (d : addr) (sc : score) : score := set_new_owner zero_score (set_owner d sc).

(* storage and events directly after the constructor, before an initial connector is added *)
Definition init_score (i : install) (d self : addr) : score * list event :=
  match i with
  | IIrc n s x e => (init_token KIrc n s (x * 10 ^ e) e d, [])
  | IIcx => (init_owned d (init_token KIcx "ICX Token" "ICXT" 0 18 d), [])
  | IFlex n s x e => (set_transferable true (init_owned d (init_token KFlex n s (x * 10 ^ e) e d)), [EvNewFlexibleToken self])
  | IConv t r f cn w =>
      (set_max_fee f (set_enabled true (set_prev_registry r (set_registry r (set_allow_reg true
         (set_token t (init_owned d (blank KConv))))))), [])
  | INet => (init_owned d (blank KNet), [])
  | IReg => (set_addrs {[ "ScoreRegistry"%string := self ]} (init_owned d (blank KReg)), [EvAddressUpdate "ScoreRegistry" self])
  | IAdv => (blank KAdv, [])
  end.
Definition init_ok (i : install) : Prop :=
  match i with
  | IIrc n s x e | IFlex n s x e => 0 <= x /\ 0 <= e
  | IConv t r f cn w => r <> zero_score /\ 0 <= f <= 1000000 /\ t <> zero_score
  | _ => True
  end.

Lemma install_inv fuel c i w w' u :
  run_install adv fuel c i (wput (c_self c) (blank (install_kind i)) w) = Ok (u, w') ->
  init_ok i /\
  let w1 := wupd (c_self c) (init_score i (c_sender c) (c_self c)).1 (init_score i (c_sender c) (c_self c)).2 w in
  (w' = w1 \/
   exists t reg f cn wt, i = IConv t reg f (Some cn) wt /\ cn <> zero_score /\
     esteps fuel KConv c (MAddConnector cn wt false) w1 w').
Proof.
  intros H.
  assert (w_scores (wput (c_self c) (blank (install_kind i)) w) !! c_self c = Some (blank (install_kind i))) as Hb by apply lookup_wput.
  destruct i as [nm sy x e| |nm sy x e|t reg f cn wt| | |]; cbn [run_install install_kind init_score init_ok fst snd] in *.
  - unfold irc_install in H. mrun H. bools. split; [lia|]. left. reflexivity.
  - unfold icx_install, irc_install, owned_install in H. mrun H. split; [done|]. left. reflexivity.
  - unfold flex_install, irc_install, owned_install in H. mrun H. bools. split; [lia|]. left. reflexivity.
  - unfold conv_install, controller_install, owned_install, require_valid_address, is_valid_address in H.
    mrun H. bools. split; [done|].
    destruct cn as [cn|]; [|apply ret_Ok in H as [_ ->]; left; reflexivity].
    case_bool_decide as Hcn; [|apply ret_Ok in H as [_ ->]; left; reflexivity].
    right. exists t, reg, f, cn, wt. split; [done|]. split; [done|].
    apply steps_esteps; [done|].
    refine (addConnector_ok _ (exec_keeps fuel) c cn wt false _ _ _ _ _ H). apply lookup_wput.
  - unfold owned_install in H. mrun H. split; [done|]. left. reflexivity.
  - unfold reg_install, registerAddress, require_owner_only, require_valid_address, owned_install in H.
    mrun H. split; [done|]. left. reflexivity.
  - mrun H. split; [done|]. left. reflexivity.
Qed.

Lemma deploy_inv fuel n a i w r w' : run_tx adv fuel (TDeploy n a i) w = Ok (r, w') ->
  a <> 0%N /\ w_scores w !! SCORE a = None /\ init_ok i /\
  let w1 := wupd (SCORE a) (init_score i (EOA n) (SCORE a)).1 (init_score i (EOA n) (SCORE a)).2 w in
  (w' = w1 \/
   exists t reg f cn wt, i = IConv t reg f (Some cn) wt /\ cn <> zero_score /\
     esteps fuel KConv (Ctx (SCORE a) (EOA n) 0 false) (MAddConnector cn wt false) w1 w').
Proof.
  cbn [run_tx]. case_bool_decide as Ha; [done|]. destruct (w_scores w !! SCORE a) eqn:Hf; [done|].
  intros H. split; [done|]. split; [done|].
  apply bind_Ok in H as ([] & w0 & H0 & H). apply put_score_Ok in H0 as ->.
  apply bind_Ok in H as ([] & w2 & H & H2). apply ret_Ok in H2 as [_ <-].
  exact (install_inv fuel (Ctx (SCORE a) (EOA n) 0 false) i w w' _ H).
Qed.

(* --------------------------------------------------- transactions and histories ---- *)
Theorem tx_ind (Inv : world -> Prop) (A : addr -> addr -> Z -> msg -> Prop) (R : world -> world -> Prop) :
  (forall w, R w w) -> (forall w1 w2 w3, R w1 w2 -> R w2 w3 -> R w1 w3) ->
  (forall w w', Inv w -> R w w' -> Inv w') ->
  (forall s t v m w w', A s t v m -> Inv w -> move_icx s t v w = Ok (tt, w') -> R w w') ->
  (forall w k c m sc sc' evs,
    A (c_sender c) (c_self c) (c_value c) m -> Inv w ->
    is_contract (c_self c) = true -> w_scores w !! c_self c = Some sc -> s_kind sc = k ->
    (is_payable k m = true \/ c_value c = 0) /\ entered Inv k c m -> 0 <= c_value c ->
    lstep k c m sc sc' evs -> R w (wupd (c_self c) sc' evs w)) ->
  (forall w k c m sc to v m',
    A (c_sender c) (c_self c) (c_value c) m -> Inv w ->
    is_contract (c_self c) = true -> w_scores w !! c_self c = Some sc -> s_kind sc = k ->
    hcall k c m sc to v m' -> A (c_self c) to v m') ->
  (forall w a sc to v m, Inv w -> is_contract a = true -> w_scores w !! a = Some sc -> s_kind sc = KAdv -> A a to v m) ->
  (forall w n a i, Inv w -> a <> 0%N -> w_scores w !! SCORE a = None -> init_ok i ->
     R w (wupd (SCORE a) (init_score i (EOA n) (SCORE a)).1 (init_score i (EOA n) (SCORE a)).2 w)) ->
  forall fuel t w r w', Inv w ->
    match t with
    | TCall n to v m => A (EOA n) to v m
    | TDeploy n a (IConv _ _ _ (Some cn) wt) => A (EOA n) (SCORE a) 0 (MAddConnector cn wt false)
    | _ => True
    end ->
    run_tx adv fuel t w = Ok (r, w') -> R w w'.
Proof.
  intros R1 R2 R3 R4 R5 R6 R7 R8 fuel t w r w' HI HA H.
  destruct t as [n to v m|n a i].
  - cbn in H. by eapply (exec_ind Inv A R).
  - apply deploy_inv in H as (Ha & Hf & Hi & [->|(t & reg & f & cn & wt & -> & Hcn & Hst)]); [by apply R8|].
    pose proof (R8 w n a _ HI Ha Hf Hi) as RR.
    eapply R2; [exact RR|]. eapply (esteps_ind Inv A R); try done; cbn; eauto; [|lia|].
    { split; [by right|]. eexists _, _. repeat split; [by eapply R3|apply lookup_insert|done|done]. }
    eexists. split; [apply lookup_insert|done].
Qed.

End exec.

(* invariants of all histories *)
Theorem reachable_ind adv (P : world -> Prop) :
  (forall w, genesis w -> P w) ->
  (forall fuel t w r w', reachable adv w -> P w -> run_tx adv fuel t w = Ok (r, w') -> P w') ->
  forall w, reachable adv w -> P w.
Proof.
  intros H1 H2 w H. induction H as [w|w fuel t H IH]; [auto|].
  unfold apply_tx. destruct (run_tx adv fuel t w) as [[r w']|] eqn:E; [eauto|done].
Qed.
