(* The price log of a converter, for connectors without a virtual balance: the converter's own balance of an IRC2 or ICX token
   is what its latest PriceDataUpdate event for the token says, as long as its owner does not act. *)
From Coq Require Import String Ascii ZArith Lia.
From stdpp Require Import base countable list numbers strings gmap relations.
From Verif Require Import Res FormulaConsts FormulaModel Codec World WorldBasics WorldSteps WorldExec WorldSpec WorldInv WorldAuth WorldEvents WorldMore PriceSpec.
Local Open Scope Z_scope.
Local Open Scope M_scope.

Section real.
Variable adv : adversary.
Notation exec := (exec adv).
Variables C T : addr.
Variable a0 : N.
Notation owner := (EOA a0).
Hypothesis HCc : is_contract C = true.

Definition rheld (sc : score) : Prop :=
  s_kind sc = KConv /\ s_owner sc = owner /\ (s_new_owner sc = zero_score \/ exists b, s_new_owner sc = EOA b) /\
  cn_venabled (conn sc T) = false /\ cn_set (conn sc T) = true /\ s_token sc <> T.
Definition plain (k : kind) : Prop := k = KIrc \/ k = KIcx.
Definition rinv (w : world) : Prop :=
  w_scores w !! zero_score = None /\ (exists sc, w_scores w !! C = Some sc /\ rheld sc) /\ is_contract T = true /\
  exists st, w_scores w !! T = Some st /\ plain (s_kind st).
Definition rb (w : world) : Z := balance_of w T C.
Definition grows (w w' : world) : Prop := rinv w' /\ exists l, w_log w' = l ++ w_log w.
Definition foll (w w' : world) : Prop := rinv w' /\ exists l, w_log w' = l ++ w_log w /\
  rb w' = default (rb w) (latest (says_price T) (own_events C l)).
Definition settled (w w' : world) : Prop := rinv w' /\ exists l, w_log w' = l ++ w_log w /\
  latest (says_price T) (own_events C l) = Some (rb w').

Lemma foll_refl w : rinv w -> foll w w.
Proof. intros H. split; [done|]. by exists []. Qed.
Lemma foll_trans w1 w2 w3 : foll w1 w2 -> foll w2 w3 -> foll w1 w3.
Proof.
  intros (_ & l1 & E1 & H1) (J & l2 & E2 & H2). split; [done|]. exists (l2 ++ l1). split; [by rewrite E2, E1, app_assoc|].
  rewrite own_app, latest_app, H2, H1. by destruct (latest _ (own_events C l2)).
Qed.
Lemma foll_grows w w' : foll w w' -> grows w w'.
Proof. intros (J & l & E & _). split; [done|]. by exists l. Qed.
Lemma settled_foll w w' : settled w w' -> foll w w'.
Proof. intros (J & l & E & H). split; [done|]. exists l. split; [done|]. by rewrite H. Qed.
Lemma grows_refl w : rinv w -> grows w w.
Proof. intros H. split; [done|]. by exists []. Qed.
Lemma grows_trans w1 w2 w3 : grows w1 w2 -> grows w2 w3 -> grows w1 w3.
Proof. intros (_ & l1 & E1) (J & l2 & E2). split; [done|]. exists (l2 ++ l1). by rewrite E2, E1, app_assoc. Qed.
Lemma grows_settled w1 w2 w3 : grows w1 w2 -> settled w2 w3 -> settled w1 w3.
Proof.
  intros (_ & l1 & E1) (J & l2 & E2 & H2). split; [done|]. exists (l2 ++ l1). split; [by rewrite E2, E1, app_assoc|].
  by rewrite own_app, latest_app, H2.
Qed.
Lemma settled_then w1 w2 w3 : settled w1 w2 -> foll w2 w3 -> settled w1 w3.
Proof.
  intros (_ & l1 & E1 & H1) (J & l2 & E2 & H2). split; [done|]. exists (l2 ++ l1). split; [by rewrite E2, E1, app_assoc|].
  rewrite own_app, latest_app, H2, H1. by destruct (latest _ (own_events C l2)).
Qed.
Lemma rb_sc w st : w_scores w !! T = Some st -> rb w = balance st C.
Proof. apply balance_of_sc. Qed.
Lemma rinv_ne w : rinv w -> C <> T.
Proof. intros (_ & (sc & Hsc & K & _) & _ & st & Hst & [P|P]) ->; congruence. Qed.

Lemma foll_same w w' : rinv w -> w_scores w' = w_scores w -> w_log w' = w_log w -> foll w w'.
Proof.
  intros J Es El. pose proof J as (Z0 & (sc & Hsc & Hh) & Ht & st & Hst & P). split.
  - split; [by rewrite Es|]. split; [exists sc; by rewrite Es|]. split; [done|]. exists st. by rewrite Es.
  - exists []. split; [by rewrite El|]. rewrite (rb_sc _ st), (rb_sc _ st); [done|done|by rewrite Es].
Qed.
Lemma rinv_upd w a sc sc' evs : rinv w -> w_scores w !! a = Some sc -> s_kind sc' = s_kind sc -> (a = C -> rheld sc') -> rinv (wupd a sc' evs w).
Proof.
  intros J Ha K Hh. pose proof J as (Z0 & (sc0 & Hsc & Hh0) & Ht & st & Hst & P). split; [|split; [|split; [done|]]]; cbn.
  - rewrite lookup_insert_ne; [done|]. intros ->. congruence.
  - destruct (decide (a = C)) as [->|Hne]; [exists sc'; by rewrite lookup_insert; auto|]. exists sc0. by rewrite lookup_insert_ne.
  - destruct (decide (a = T)) as [->|Hne]; [|exists st; by rewrite lookup_insert_ne].
    exists sc'. rewrite lookup_insert. split; [done|]. rewrite K. congruence.
Qed.
Lemma grows_upd w a sc sc' evs : rinv w -> w_scores w !! a = Some sc -> s_kind sc' = s_kind sc -> (a = C -> rheld sc') -> grows w (wupd a sc' evs w).
Proof. intros. split; [by eapply rinv_upd|]. by eexists. Qed.
Lemma foll_upd w a sc sc' evs : rinv w -> w_scores w !! a = Some sc -> s_kind sc' = s_kind sc -> (a = C -> rheld sc') ->
  (a = C -> latest (says_price T) evs = None) -> (a = T -> balance sc' C = balance sc C) -> foll w (wupd a sc' evs w).
Proof.
  intros J Ha K Hh Hl Hb. split; [by eapply rinv_upd|]. exists (map (pair a) evs). split; [done|].
  assert (rb (wupd a sc' evs w) = rb w) as ->.
  { pose proof J as (_ & _ & _ & st & Hst & _). rewrite (rb_sc w st Hst). destruct (decide (a = T)) as [->|Hne].
    - rewrite (rb_sc _ sc'); [|cbn; by rewrite lookup_insert]. rewrite Hb by done. congruence.
    - rewrite (rb_sc _ st); [done|]. cbn. by rewrite lookup_insert_ne. }
  destruct (decide (a = C)) as [->|Hne]; [by rewrite own_self, Hl|]. by rewrite own_other.
Qed.
Lemma foll_log w a e : rinv w -> (a = C -> says_price T e = None) -> foll w (wlog a e w).
Proof.
  intros J He. split; [exact J|]. exists [(a, e)]. split; [done|]. change (rb (wlog a e w)) with (rb w).
  unfold own_events. cbn. case_decide; [|done]. cbn. by rewrite He.
Qed.
Lemma settles w s x : rinv w -> settled w (wlog C (EvPriceDataUpdate T s (rb w) x) w).
Proof.
  intros J. split; [exact J|]. exists [(C, EvPriceDataUpdate T s (rb w) x)]. split; [done|].
  cbn. rewrite decide_True by done. cbn. by rewrite decide_True by done.
Qed.

Lemma rheld_conn sc t cn : rheld sc -> t <> T -> rheld (set_conn t cn sc).
Proof. intros (A & B & D & E & F & G) Hne. split; [done|]. split; [done|]. split; [done|]. rewrite !conn_set_conn, decide_False by done. done. Qed.
Lemma rheld_virtual sc t z : rheld sc -> rheld (set_virtual t z sc).
Proof.
  intros (A & B & D & E & F & G). unfold set_virtual. split; [done|]. split; [done|]. split; [done|]. rewrite !conn_set_conn.
  case_decide; by subst.
Qed.

(* messages: from nobody in the place of the zero address, not from the owner, and not the acceptance of the ownership by an account *)
Definition dframe (s t : addr) (m : msg) : Prop := s <> zero_score /\ s <> owner /\
  (t = C -> is_contract s = false -> m <> MAcceptOwnership) /\ (s = T -> forall from v d, m = MTokenFallback from v d -> from <> owner).
Lemma dframe_other s t m : s <> zero_score -> is_contract s = true -> s <> T -> dframe s t m.
Proof. intros A B D. split; [done|]. split; [by intros ->|]. split; [congruence|done]. Qed.

(* steps of C outside tokenFallback *)
Lemma quiet_step c m sc sc' evs : lstep KConv c m sc sc' evs -> rheld sc -> dframe (c_sender c) C m ->
  (forall f v d, m <> MTokenFallback f v d) -> rheld sc' /\ latest (says_price T) evs = None.
Proof.
  intros Hl Hh (Hz & Ho & Hd & _) Hm. pose proof Hh as (K & Ha & Hn & Hv & Hs & Htok).
  inversion Hl; subst; try done; try (by exfalso; eapply Hm); try congruence.
  - exfalso. match goal with H : c_sender c = s_new_owner sc |- _ => rewrite H in Hd, Hz end.
    destruct Hn as [Hn|[b Hn]]; [congruence|]. rewrite Hn in Hd. by specialize (Hd eq_refl eq_refl).
  - split; [|done]. assert (t <> T) as Hne by congruence. by apply (rheld_conn sc t (Connector 0 weight ve true true)).
Qed.

Definition R (s t : addr) (m : msg) (w w' : world) : Prop :=
  (s = C -> t = T -> grows w w') /\ (~ (s = C /\ t = T) -> foll w w') /\
  (s = T -> t = C -> (exists from v d, m = MTokenFallback from v d) -> settled w w').
Lemma R_grows s t m w w' : R s t m w w' -> grows w w'.
Proof.
  intros (A & B & _). destruct (decide (s = C /\ t = T)) as [[? ?]|Hne]; [by apply A|]. by apply foll_grows, B.
Qed.

Section frames.
Variable f : nat.
Hypothesis IH : forall ro s t v m w r w', rinv w -> dframe s t m -> exec f ro s t v m w = Ok (r, w') -> R s t m w w'.
Notation call := (exec f).

(* frames of other contracts *)
Lemma esteps_other k c m w w' : c_self c <> C -> c_self c <> T -> is_contract (c_self c) = true -> rinv w -> esteps adv f k c m w w' -> foll w w'.
Proof.
  intros HC HT Hk J S. induction S as [w|w w1 w2 S1 _ IHS]; [by apply foll_refl|].
  assert (foll w w1) as F.
  { destruct S1 as [w sc sc' evs H1 H2 H3|ro w w' sc to v m' r H1 H2 _ H3].
    - eapply foll_upd; [done|exact H1|by eapply lstep_kind|done..].
    - eapply IH in H3; [apply H3; by intros [? _]|done|]. apply dframe_other; [|done|done].
      intros E. rewrite E in H1. by destruct J as [J _]; rewrite J in H1. }
  eapply foll_trans; [exact F|]. apply IHS. apply F.
Qed.
(* frames of T *)
Lemma token_call sc c m to v m' k w : plain k -> c_self c = T -> rinv w -> w_scores w !! c_self c = Some sc -> c_sender c <> owner -> hcall k c m sc to v m' -> dframe T to m'.
Proof.
  intros P Hself J Hsc Ho Hc. split; [|split; [|split]].
  - intros E. rewrite Hself, E in Hsc. by destruct J as [J _]; rewrite J in Hsc.
  - destruct J as (_ & _ & Ht & _). by intros ->.
  - destruct J as (_ & _ & Ht & _). congruence.
  - intros _ from x d ->. inversion Hc; subst; try done; destruct P; congruence.
Qed.
Lemma esteps_token_grows k c m w w' : plain k -> c_self c = T -> c_sender c <> owner -> rinv w -> esteps adv f k c m w w' -> grows w w'.
Proof.
  intros P Hself Ho J S. induction S as [w|w w1 w2 S1 _ IHS]; [by apply grows_refl|].
  assert (grows w w1) as F.
  { destruct S1 as [w sc sc' evs H1 H2 H3|ro w w' sc to v m' r H1 H2 _ H3].
    - eapply grows_upd; [done|exact H1|by eapply lstep_kind|]. rewrite Hself. intros E. pose proof (rinv_ne _ J). congruence.
    - destruct H2 as [->|H2]; [by destruct P|]. pose proof (token_call _ _ _ _ _ _ _ _ P Hself J H1 Ho H2) as D. rewrite Hself in H3.
      eapply R_grows, IH; [exact J|exact D|exact H3]. }
  eapply grows_trans; [exact F|]. apply IHS. apply F.
Qed.
Lemma esteps_token k c m w w' : plain k -> c_self c = T -> c_sender c <> owner -> c_sender c <> C -> (forall v d, m <> MTransfer C v d) -> rinv w ->
  esteps adv f k c m w w' -> foll w w'.
Proof.
  intros P Hself Ho HsC Hm J S. induction S as [w|w w1 w2 S1 _ IHS]; [by apply foll_refl|].
  assert (foll w w1) as F.
  { pose proof (rinv_ne _ J) as HCT. destruct S1 as [w sc sc' evs H1 H2 H3|ro w w' sc to v m' r H1 H2 _ H3].
    - eapply foll_upd; [done|exact H1|by eapply lstep_kind|congruence|congruence|]. intros _.
      destruct P as [-> | ->]; inversion H2; subst; try done; rewrite ?balance_set_supply, ?balance_add; repeat case_decide; subst; try done; try lia; exfalso; by eapply Hm.
    - destruct H2 as [->|H2]; [by destruct P|]. pose proof (token_call _ _ _ _ _ _ _ _ P Hself J H1 Ho H2) as D. rewrite Hself in H3.
      eapply IH; [exact J|exact D|exact H3|]. intros [? _]. congruence. }
  eapply foll_trans; [exact F|]. apply IHS. apply F.
Qed.
(* a transfer of T to C *)
Lemma transfer_to_C c v d w r w' : c_self c = T -> dframe (c_sender c) T (MTransfer C v d) -> rinv w -> is_contract C = true ->
  irc_transfer call c C v d w = Ok (r, w') -> settled w w'.
Proof.
  intros Hself (_ & Ho & _) J HC E. pose proof (rinv_ne _ J) as HCT. unfold irc_transfer, irc_transfer_ in E. rewrite HC in E.
  apply bind_Ok in E as (? & w1 & E1 & E). apply require_Ok in E1 as [_ ->].
  apply bind_Ok in E as (sc & w1 & E1 & E). apply this_Ok in E1 as [Hsc ->].
  apply bind_Ok in E as (? & w1 & E1 & E). apply require_Ok in E1 as [_ ->].
  apply bind_Ok in E as (? & w1 & E1 & E). apply modify_Ok in E1 as (sc1 & Hsc1 & ->).
  apply bind_Ok in E as (? & w1 & E1 & E). apply modify_Ok in E1 as (sc2 & Hsc2 & ->).
  apply bind_Ok in E as (? & w1 & E1 & E). apply emit_Ok in E as ->.
  rewrite Hself in *. rewrite wput_wput in E1.
  rewrite lookup_wput in Hsc2. injection Hsc2 as <-.
  match type of E1 with ecall _ _ _ _ (wput T ?s w) = _ => set (st := s) in * end.
  assert (grows w (wput T st w)) as G. { apply (grows_upd w T sc1 st []); [done|done|done|congruence]. }
  unfold ecall in E1. rewrite Hself in E1. eapply IH in E1 as (_ & _ & E1); [|apply G|].
  - specialize (E1 eq_refl eq_refl ltac:(by do 3 eexists)). eapply grows_settled; [exact G|]. eapply settled_then; [exact E1|].
    apply foll_log; [apply E1|]. congruence.
  - destruct J as (Z0 & _ & Ht & st0 & Hst & _). split; [intros E; congruence|]. split; [by intros E; rewrite E in Ht|]. split; [congruence|].
    intros _ ? ? ? [= <- _ _]. done.
Qed.

(* frames of C *)
Lemma C_call to v m ro w r w' : rinv w -> exec f ro C to v m w = Ok (r, w') -> is_contract C = true -> (to <> T \/ is_readonly m = true) -> foll w w'.
Proof.
  intros J E HC Hm. destruct (decide (to = T)) as [->|Hne].
  - destruct Hm as [Hm|Hm]; [done|]. pose proof J as (_ & _ & Ht & st & Hst & P).
    assert (w' = w) as ->; [|by apply foll_refl]. eapply exec_view; [exact Hst| |done|exact Hm|exact E]. destruct P; congruence.
  - pose proof (rinv_ne _ J). eapply IH in E; [apply E; by intros [_ ?]|done|]. apply dframe_other; [|done|done].
    intros E'. destruct J as (Z0 & (sc & Hsc & _) & _). congruence.
Qed.
Lemma C_pay to v m ro w r w' : rinv w -> exec f ro C to v m w = Ok (r, w') -> is_contract C = true -> grows w w'.
Proof.
  intros J E HC. pose proof (rinv_ne _ J). eapply R_grows, IH; [done| |exact E]. apply dframe_other; [|done|done].
  intros E'. destruct J as (Z0 & (sc & Hsc & _) & _). congruence.
Qed.
Lemma esteps_C c m w w' : c_self c = C -> is_contract C = true -> dframe (c_sender c) C m -> (forall f v d, m <> MTokenFallback f v d) -> rinv w ->
  esteps adv f KConv c m w w' -> foll w w'.
Proof.
  intros Hself HC Hd Hm J S. induction S as [w|w w1 w2 S1 _ IHS]; [by apply foll_refl|].
  assert (foll w w1) as F.
  { pose proof J as (Z0 & (sc0 & Hsc0 & Hh) & _). destruct S1 as [w sc sc' evs H1 H2 H3|ro w w' sc to v m' r H1 H2 _ H3].
    - rewrite Hself in *. assert (sc0 = sc) as -> by congruence. destruct (quiet_step _ _ _ _ _ H2 Hh Hd Hm) as [A B].
      eapply foll_upd; [done|exact H1|by eapply lstep_kind|done|done|]. pose proof (rinv_ne _ J). congruence.
    - rewrite Hself in *. assert (sc0 = sc) as -> by congruence. destruct Hh as (K & Ho & _). destruct Hd as (_ & Hso & _).
      eapply C_call; [done|exact H3|done|]. right. destruct H2 as [H2|H2]; [done|]. inversion H2; subst; try done; try congruence; exfalso; by eapply Hm. }
  eapply foll_trans; [exact F|]. apply IHS. apply F.
Qed.

Section fallback.
Variable c : ctx.
Hypothesis Hself : c_self c = C.
Hypothesis HC : is_contract C = true.
Ltac nxt E w E1 := apply bind_Ok in E as (? & w & E1 & E).

Lemma this_self w sc w' : this c w = Ok (sc, w') -> w_scores w !! C = Some sc /\ w' = w.
Proof. intros E. apply this_Ok in E. by rewrite Hself in E. Qed.
Lemma ecall_foll to m w r w' : rinv w -> ecall call c to m w = Ok (r, w') -> (to <> T \/ is_readonly m = true) -> foll w w'.
Proof. unfold ecall. rewrite Hself. intros J E Hm. by eapply C_call. Qed.
Lemma ecall_grows to m w r w' : rinv w -> ecall call c to m w = Ok (r, w') -> grows w w'.
Proof. unfold ecall. rewrite Hself. intros J E. by eapply C_pay. Qed.
Lemma views_foll {A} (p : M A) w a w' : okm call KConv c MGetOwner p -> rinv w -> p w = Ok (a, w') -> foll w w'.
Proof.
  intros Hp J E. pose proof J as (_ & (sc & Hsc & _) & _). rewrite <- Hself in Hsc. pose proof (Hp sc w a w' Hsc E) as S. clear Hp E Hsc sc.
  induction S as [w|w w1 w2 S1 _ IHS]; [by apply foll_refl|].
  assert (foll w w1) as F.
  { destruct S1 as [w sc sc' evs H1 H2|w w' sc to v m' r H1 H2 H3]; [by inversion H2; try done; naive_solver|].
    rewrite Hself in H3. eapply C_call; [done|exact H3|done|]. right. inversion H2; subst; try done; naive_solver. }
  eapply foll_trans; [exact F|]. apply IHS. apply F.
Qed.
Lemma supply_foll w z w' : rinv w -> token_supply call c w = Ok (z, w') -> foll w w'.
Proof. intros J E. eapply views_foll; [|exact J|exact E]. apply token_supply_ok, exec_keeps. Qed.
Lemma balance_foll t w z w' : rinv w -> getConnectorBalance call c t w = Ok (z, w') -> foll w w'.
Proof. intros J E. eapply views_foll; [|exact J|exact E]. apply getConnectorBalance_ok, exec_keeps. Qed.
Lemma balance_real w z w' : rinv w -> getConnectorBalance call c T w = Ok (z, w') -> w' = w /\ z = rb w.
Proof.
  intros J E. pose proof J as (_ & (sc & Hsc & _ & _ & _ & Hv & _) & Ht & st & Hst & P). unfold getConnectorBalance in E. apply bind_Ok in E as (u & w1 & E1 & E).
  unfold require_valid_connector in E1. mrun E1. apply bind_Ok in E as (sc' & w2 & E2 & E). apply this_self in E2 as [Hsc2 ->].
  rewrite Hself in *. scunify. rewrite Hv in E.
  apply bind_Ok in E as (r & w2 & E2 & E). apply as_int_Ok in E as [-> ->]. unfold ecall in E2. rewrite Hself in E2. destruct f as [|f']; [done|].
  rewrite (rb_sc _ _ Hst). assert (exists n, T = SCORE n) as [n ET] by (destruct T as [k|k]; [done|by exists k]).
  rewrite ET in E2, Hst. cbn [World.exec] in E2.
  apply bind_Ok in E2 as (? & w3 & E3 & E2). apply require_Ok in E3 as [_ ->].
  apply bind_Ok in E2 as (? & w3 & E3 & E2). unfold move_icx in E3. cbn in E3. injection E3 as _ <-.
  apply bind_Ok in E2 as (st' & w3 & E3 & E2). apply get_score_Ok in E3 as [Hst' ->]. assert (st' = st) as -> by congruence.
  assert (forall k c' w4, (k = KIrc \/ k = KIcx) -> c_self c' = SCORE n -> w_scores w4 !! SCORE n = Some st ->
    honest_handler (exec f') k c' (MBalanceOf C) w4 = Ok (RInt z, w2) -> w2 = w4 /\ z = balance st C) as HH.
  { intros k c' w4 [-> | ->] Es Hs4 E4; cbn in E4; apply bind_Ok in E4 as (st2 & w5 & E5 & E4); apply this_Ok in E5 as [E5 ->];
      rewrite Es in E5; apply ret_Ok in E4 as [E4 ->]; injection E4 as ->; assert (st2 = st) as -> by congruence; done. }
  destruct P as [P|P]; rewrite P in *; apply bind_Ok in E2 as (? & w5 & E5 & E2); apply require_Ok in E5 as [_ ->];
    apply bind_Ok in E2 as (? & w5 & E5 & E2); apply require_Ok in E5 as [_ ->]; (eapply HH in E2; [exact E2| |done|done]); auto.
Qed.
Lemma price_settles w s u w2 : rinv w -> price_data_update call c T s w = Ok (u, w2) -> settled w w2.
Proof.
  intros J E. unfold price_data_update in E. apply bind_Ok in E as (z & w3 & E1 & E).
  apply balance_real in E1 as (-> & ->); [|exact J]. nxt E w3 E3. apply this_self in E3 as [_ ->]. apply emit_Ok in E as ->. rewrite Hself. by apply settles.
Qed.
Lemma price_other w t s u w2 : rinv w -> t <> T -> price_data_update call c t s w = Ok (u, w2) -> foll w w2.
Proof.
  intros J Hne E. unfold price_data_update in E. apply bind_Ok in E as (z & w3 & E1 & E). apply balance_foll in E1; [|done].
  nxt E w4 E4. apply this_self in E4 as [_ ->]. apply emit_Ok in E as ->. eapply foll_trans; [exact E1|].
  apply foll_log; [apply E1|]. intros _. cbn. by rewrite decide_False.
Qed.
Lemma price_foll w t s u w2 : rinv w -> price_data_update call c t s w = Ok (u, w2) -> foll w w2.
Proof. intros J E. destruct (decide (t = T)) as [->|Hne]; [by eapply settled_foll, price_settles|by eapply price_other]. Qed.
Lemma put_virtual w sc t z : rinv w -> w_scores w !! C = Some sc -> foll w (wput C (set_virtual t z sc) w).
Proof.
  intros J Hsc. pose proof J as (_ & (sc0 & Hsc0 & Hh) & _). assert (sc0 = sc) as -> by congruence. pose proof (rinv_ne _ J).
  apply (foll_upd w C sc _ []); [done|done|done|intros _; by apply rheld_virtual|done|congruence].
Qed.
Lemma raise_foll w (b : score -> bool) (g : score -> Z) t sc u w' : rinv w -> w_scores w !! C = Some sc ->
  (if b sc then modify c (set_virtual t (g sc)) else ret tt) w = Ok (u, w') -> foll w w'.
Proof.
  intros J Hsc E. destruct (b sc).
  - mstep E. rewrite Hself in *. scunify. by apply put_virtual.
  - mstep E. by apply foll_refl.
Qed.
Lemma lower_foll w (b : score -> bool) x y t sc u w' : rinv w -> w_scores w !! C = Some sc ->
  (if b sc then v <~ safe_sub x y; modify c (set_virtual t v) else ret tt) w = Ok (u, w') -> foll w w'.
Proof.
  intros J Hsc E. destruct (b sc).
  - mrun E. rewrite Hself in *. scunify. by apply put_virtual.
  - mstep E. by apply foll_refl.
Qed.
Lemma conversion_foll w from to tr x y z u w' : rinv w -> emit c (EvConversion from to tr x y z) w = Ok (u, w') -> foll w w'.
Proof. intros J E. mstep E. by apply foll_log. Qed.

(* a conversion from T settles the balance, any other keeps balance and log in step *)
Definition done_with (from : addr) (w w' : world) : Prop := foll w w' /\ (from = T -> settled w w').
Lemma done_after from w1 w2 w3 : foll w1 w2 -> done_with from w2 w3 -> done_with from w1 w3.
Proof. intros A [B D]. split; [by eapply foll_trans|]. intros ->. eapply grows_settled; [by apply foll_grows|by apply D]. Qed.

Lemma buy_done tr t a mr w z w' : rinv w -> buy call c tr t a mr w = Ok (z, w') -> done_with t w w'.
Proof.
  intros J E. unfold buy in E. apply bind_Ok in E as ([x fee] & w1 & E1 & E).
  assert (foll w w1) as F1 by (eapply views_foll; [|exact J|exact E1]; apply get_purchase_return_ok, exec_keeps). clear E1.
  nxt E w2 E2. apply require_Ok in E2 as [_ ->]. nxt E w2 E2. apply this_self in E2 as [Hsc ->].
  nxt E w2 E2. eapply (raise_foll w1 (fun sc => cn_venabled (conn sc t)) (fun sc => cn_virtual (conn sc t) + a)) in E2; [|apply F1|exact Hsc].
  apply bind_Ok in E as (sc3 & w3 & E3 & E). apply this_self in E3 as [Hsc3 ->].
  assert (s_token sc3 <> T) as Htok. { destruct E2 as ((_ & (sc0 & Hsc0 & Hh) & _) & _). assert (sc0 = sc3) as <- by congruence. apply Hh. }
  nxt E w3 E3. apply ecall_foll in E3; [|apply E2|by left].
  nxt E w4 E4. apply conversion_foll in E4; [|apply E3]. nxt E w5 E5. apply supply_foll in E5; [|apply E4].
  nxt E w6 E6. apply ret_Ok in E as [_ ->].
  eapply done_after; [exact (foll_trans _ _ _ F1 (foll_trans _ _ _ E2 (foll_trans _ _ _ E3 (foll_trans _ _ _ E4 E5))))|].
  split; [eapply price_foll; [apply E5|exact E6]|]. intros ->. eapply price_settles; [apply E5|exact E6].
Qed.

Lemma sell_done tr t a mr w z w' : rinv w -> sell call c tr t a mr w = Ok (z, w') -> foll w w'.
Proof.
  intros J E. unfold sell in E. apply bind_Ok in E as ([x fee] & w1 & E1 & E).
  assert (foll w w1) as F1 by (eapply views_foll; [|exact J|exact E1]; apply get_sale_return_ok, exec_keeps). clear E1.
  nxt E w2 E2. apply require_Ok in E2 as [_ ->].
  nxt E w2 E2. apply supply_foll in E2; [|apply F1]. nxt E w3 E3. apply balance_foll in E3; [|apply E2].
  nxt E w4 E4. apply require_Ok in E4 as [_ ->]. nxt E w4 E4. apply this_self in E4 as [Hsc ->].
  nxt E w4 E4. eapply (lower_foll w3 (fun sc => cn_venabled (conn sc t))) in E4; [|apply E3|exact Hsc].
  apply bind_Ok in E as (sc5 & w5 & E5 & E). apply this_self in E5 as [Hsc5 ->].
  assert (s_token sc5 <> T) as Htok. { destruct E4 as ((_ & (sc0 & Hsc0 & Hh) & _) & _). assert (sc0 = sc5) as <- by congruence. apply Hh. }
  nxt E w5 E5. apply ecall_foll in E5; [|apply E4|by left].
  nxt E w6 E6. pose proof (ecall_grows _ _ _ _ _ ltac:(apply E5) E6) as G6.
  nxt E w7 E7. apply conversion_foll in E7; [|apply G6]. nxt E w8 E8. apply supply_foll in E8; [|apply E7].
  nxt E w9 E9. apply ret_Ok in E as [_ ->].
  pose proof (foll_trans _ _ _ F1 (foll_trans _ _ _ E2 (foll_trans _ _ _ E3 (foll_trans _ _ _ E4 E5)))) as F5.
  pose proof (foll_trans _ _ _ E7 E8) as F8.
  eapply foll_trans; [exact F5|]. destruct (decide (t = T)) as [->|Hne].
  - eapply settled_foll, grows_settled; [exact (grows_trans _ _ _ G6 (foll_grows _ _ F8))|]. eapply price_settles; [apply E8|exact E9].
  - apply ecall_foll in E6; [|apply E5|by left]. eapply foll_trans; [exact E6|]. eapply foll_trans; [exact F8|]. eapply price_foll; [apply E8|exact E9].
Qed.

Lemma cross_done tr from t a mr w z w' : rinv w -> from <> t -> convert_cross call c tr from t a mr w = Ok (z, w') -> done_with from w w'.
Proof.
  intros J Hft E. unfold convert_cross in E. apply bind_Ok in E as ([x fee] & w1 & E1 & E).
  assert (foll w w1) as F1 by (eapply views_foll; [|exact J|exact E1]; apply get_cross_ok, exec_keeps). clear E1.
  nxt E w2 E2. apply require_Ok in E2 as [_ ->]. nxt E w2 E2. apply this_self in E2 as [Hsc ->].
  nxt E w2 E2. eapply (raise_foll w1 (fun sc => cn_venabled (conn sc from)) (fun sc => cn_virtual (conn sc from) + a)) in E2; [|apply F1|exact Hsc].
  nxt E w3 E3. apply this_self in E3 as [Hsc2 ->].
  nxt E w3 E3. eapply (lower_foll w2 (fun sc => cn_venabled (conn sc t))) in E3; [|apply E2|exact Hsc2].
  nxt E w4 E4. apply balance_foll in E4; [|apply E3].
  nxt E w5 E5. apply require_Ok in E5 as [_ ->]. nxt E w5 E5. pose proof (ecall_grows _ _ _ _ _ ltac:(apply E4) E5) as G5.
  nxt E w6 E6. apply conversion_foll in E6; [|apply G5]. nxt E w7 E7. apply supply_foll in E7; [|apply E6].
  nxt E w8 E8. nxt E w9 E9. apply ret_Ok in E as [_ ->].
  pose proof (foll_trans _ _ _ F1 (foll_trans _ _ _ E2 (foll_trans _ _ _ E3 E4))) as F4. pose proof (foll_trans _ _ _ E6 E7) as F7.
  eapply done_after; [exact F4|]. destruct (decide (t = T)) as [->|Hne].
  - assert (foll w7 w8) as F8 by (eapply price_foll; [apply E7|exact E8]).
    split; [|done]. eapply settled_foll, grows_settled; [exact (grows_trans _ _ _ G5 (foll_grows _ _ (foll_trans _ _ _ F7 F8)))|].
    eapply price_settles; [apply F8|exact E9].
  - apply ecall_foll in E5; [|apply E4|by left]. eapply done_after; [exact (foll_trans _ _ _ E5 F7)|].
    assert (foll w7 w8) as F8 by (eapply price_foll; [apply E7|exact E8]).
    assert (foll w8 w9) as F9 by (eapply price_foll; [apply F8|exact E9]).
    split; [by eapply foll_trans|]. intros ->. eapply settled_then; [eapply price_settles; [apply E7|exact E8]|exact F9].
Qed.

Lemma fallback_done from v d w z w' : rinv w -> (c_sender c = T -> from <> owner) -> conv_tokenFallback call c from v d w = Ok (z, w') -> done_with (c_sender c) w w'.
Proof.
  intros J Hfrom E. unfold conv_tokenFallback in E.
  nxt E w1 E1. unfold require_positive_value in E1. apply require_Ok in E1 as [_ ->].
  apply bind_Ok in E as (sc & w1 & E1 & E). apply this_self in E1 as [Hsc ->]. cbv zeta in E.
  pose proof J as (_ & (sc0 & Hsc0 & Hh) & _). assert (sc0 = sc) as -> by congruence. clear Hsc0.
  apply bind_Ok in E as (acc & w1 & E1 & E).
  assert (foll w w1 /\ (acc = true -> from = owner)) as [F1 Hacc].
  { destruct (bool_decide _ && _) eqn:Hb.
    - apply andb_true_iff in Hb as [Hb _]. apply bool_decide_eq_true in Hb.
      apply bind_Ok in E1 as (b & w2 & E2 & E1). apply ret_Ok in E1 as [_ ->]. split; [|intros _; rewrite Hb; apply Hh].
      eapply views_foll; [|exact J|exact E2]. apply is_active_ok, exec_keeps.
    - apply ret_Ok in E1 as [-> ->]. split; [by apply foll_refl|done]. }
  clear E1. destruct acc.
  { apply ret_Ok in E as [_ ->]. split; [done|]. intros Ec. by destruct (Hfrom Ec); apply Hacc. }
  apply bind_Ok in E as (sc2 & w2 & E2 & E). apply this_self in E2 as [Hsc2 ->]. nxt E w2 E2. apply ecall_foll in E2; [|apply F1|by right].
  nxt E w3 E3. apply require_Ok in E3 as [_ ->]. destruct (conv_request d) as [[t mr]|]; [|done].
  nxt E w3 E3. apply ret_Ok in E as [_ ->]. eapply done_after; [exact (foll_trans _ _ _ F1 E2)|].
  assert (rinv w2) as J2 by apply E2. clear E2 F1 Hsc2 Hsc Hh sc J.
  unfold conv_convert in E3. apply bind_Ok in E3 as (sc & w4 & E4 & E3). apply this_self in E4 as [Hsc ->].
  assert (s_token sc <> T) as Htok. { destruct J2 as (_ & (sc0 & Hsc0 & Hh) & _). assert (sc0 = sc) as <- by congruence. apply Hh. }
  nxt E3 w4 E4. apply require_Ok in E4 as [_ ->]. nxt E3 w4 E4. unfold require_positive_value in E4. apply require_Ok in E4 as [_ ->].
  nxt E3 w4 E4. apply require_Ok in E4 as [Hft ->]. apply bool_decide_eq_true in Hft.
  case_bool_decide; [eapply buy_done; [exact J2|exact E3]|]. case_bool_decide as Hs.
  - apply sell_done in E3; [|exact J2]. split; [done|]. congruence.
  - eapply cross_done; [exact J2|exact Hft|exact E3].
Qed.
End fallback.
End frames.

Theorem R_exec fuel : forall ro s t v m w r w', rinv w -> dframe s t m -> exec fuel ro s t v m w = Ok (r, w') -> R s t m w w'.
Proof.
  induction fuel as [|f IH]; intros ro s t v m w r w' J Hd E; [done|].
  apply exec_inv in E as (w1 & Ei & _ & E); [|apply exec_keeps].
  assert (foll w w1) as F1. { apply foll_same; [done|by eapply move_icx_scores|by eapply move_icx_log]. }
  assert (R s t m w1 w') as (A & B & D).
  2:{ split; [|split]; intros.
      - eapply grows_trans; [by apply foll_grows|by apply A].
      - eapply foll_trans; [exact F1|by apply B].
      - eapply grows_settled; [by apply foll_grows|by apply D]. }
  assert (rinv w1) as J1 by apply F1. clear F1 Ei J w. pose proof (rinv_ne _ J1) as HCT.
  destruct E as [(n & -> & -> & ->)|(sc & Ht & Hsc & _ & _ & Hh & _ & S)].
  { split; [intros; by apply grows_refl|]. split; [intros; by apply foll_refl|]. by intros _ _ (? & ? & ? & ?). }
  destruct (decide (t = T)) as [->|HneT].
  { assert (plain (s_kind sc)) as P. { destruct J1 as (_ & _ & _ & st & Hst & P). congruence. }
    assert (c_sender (frame ro s T v m (s_kind sc)) = s) as Es by done.
    split; [|split; [|congruence]].
    - intros -> _. eapply esteps_token_grows; [exact IH|exact P| | |exact J1|exact S]; [done|apply Hd].
    - intros HsC. assert (s <> C) as HsC' by (intros ->; auto). clear HsC.
      destruct (match m with MTransfer to _ _ => bool_decide (to = C) | _ => false end) eqn:Hm.
      + destruct m; try done. apply bool_decide_eq_true in Hm as ->. apply settled_foll.
        destruct Hd as (Hz & Ho & Hd1 & Hd2).
        assert (exists cc u w2, c_self cc = T /\ c_sender cc = s /\ irc_transfer (exec f) cc C v0 d w1 = Ok (u, w2) /\ w' = w2) as (cc & u & w2 & Ec & Es' & E & ->).
        { specialize (Hh ltac:(destruct P; congruence)). destruct P as [P|P]; rewrite P in Hh; cbn in Hh; unfold done_ in Hh.
          - apply bind_Ok in Hh as (u & w2 & E & Hh). apply ret_Ok in Hh as [_ ->]. eexists _, _, _. split; [|split; [|split; [exact E|done]]]; done.
          - apply bind_Ok in Hh as (u & w2 & E & Hh). apply ret_Ok in Hh as [_ ->]. unfold icx_transferTo in E. apply bind_Ok in E as (u' & w3 & E1 & E).
            unfold require_not_this in E1. apply require_Ok in E1 as [_ ->]. eexists _, _, _. split; [|split; [|split; [exact E|done]]]; done. }
        eapply (transfer_to_C f IH cc); [done| |exact J1|done|exact E]. rewrite Es'. split; [done|]. split; [done|]. split; [congruence|].
        intros ->. intros ? ? ? ?. done.
      + eapply esteps_token; [exact IH|exact P| | | | |exact J1|exact S]; [done|apply Hd|done|].
        intros x y ->. by rewrite bool_decide_eq_true_2 in Hm. }
  destruct (decide (t = C)) as [->|HneC].
  2:{ assert (foll w1 w') as F by (eapply esteps_other; [exact IH| | | |exact J1|exact S]; done).
      split; [done|]. split; done. }
  split; [done|]. pose proof J1 as (Z0 & (sc0 & Hsc0 & Hheld) & _). assert (sc0 = sc) as -> by congruence. pose proof (proj1 Hheld) as K. rewrite K in *.
  destruct (match m with MTokenFallback _ _ _ => true | _ => false end) eqn:Hm.
  - destruct m; try done. specialize (Hh ltac:(done)). cbn in Hh. eapply (fallback_done f IH) in Hh as [F G]; [|done|done|exact J1|].
    + split; [done|]. intros -> _ _. by apply G.
    + intros Es. cbn in Es. eapply (proj2 (proj2 (proj2 Hd))); [exact Es|reflexivity].
  - assert (forall a b d, m <> MTokenFallback a b d) as Hm' by (intros; by intros ->).
    split; [|by intros _ _ (? & ? & ? & ->)]. intros _. eapply esteps_C; [exact IH| |done| |exact Hm'|exact J1|exact S]; [done|exact Hd].
Qed.

(* one transaction by anybody but the owner *)
Definition follw (w w' : world) : Prop := kind_at w' C = Some KConv /\ is_connector w' C T /\ cn_venabled (connector_of w' C T) = false /\
  (kind_at w' T = Some KIrc \/ kind_at w' T = Some KIcx) /\
  exists l, w_log w' = l ++ w_log w /\ balance_of w' T C = default (balance_of w T C) (latest (says_price T) (own_events C l)).
Lemma foll_weak w w' : foll w w' -> follw w w'.
Proof.
  intros ((_ & (sc & Hsc & K & _ & _ & Hv & Hs & _) & _ & st & Hst & P) & H). unfold follw, kind_at, is_connector, connector_of, var.
  rewrite Hsc, Hst. cbn. rewrite K. split; [done|]. split; [done|]. split; [done|]. split; [|exact H]. destruct P as [-> | ->]; auto.
Qed.

Lemma tx_accept fuel s v w r w' : rinv w -> exec fuel false s C v MAcceptOwnership w = Ok (r, w') -> follw w w'.
Proof.
  intros J E. destruct fuel as [|f]; [done|]. apply exec_inv in E as (w1 & Ei & _ & E); [|apply exec_keeps].
  assert (foll w w1) as F1 by (apply foll_same; [done|by eapply move_icx_scores|by eapply move_icx_log]).
  destruct F1 as (J1 & l1 & El1 & Hv1).
  assert (follw w1 w') as (A & B & B1 & B2 & l & El & Hv).
  { destruct E as [(k & _ & ? & _)|(sc & Ht & Hsc & _ & _ & Hh & _)]; [done|].
    pose proof J1 as (Z0 & (sc0 & Hsc0 & Hheld) & _ & st & Hst & P). assert (sc0 = sc) as -> by congruence. clear Hsc0. pose proof (rinv_ne _ J1) as HCT.
    destruct Hheld as (K & _ & _ & Hv & Hs & _).
    rewrite K in Hh. specialize (Hh ltac:(done)). cbn [honest_handler conv_handler owned_methods] in Hh. unfold done_, acceptOwnerShip in Hh.
    mrun Hh. cbn in *. scunify. unfold follw, kind_at, is_connector, connector_of, balance_of, var. cbn. rewrite lookup_insert, lookup_insert_ne, Hst by done.
    split; [cbn; by rewrite K|]. split; [exact Hs|]. split; [exact Hv|]. split; [cbn; destruct P as [-> | ->]; auto|].
    eexists [_]. split; [reflexivity|]. cbn. by rewrite decide_True. }
  split; [done|]. split; [done|]. split; [done|]. split; [done|]. exists (l ++ l1). split; [by rewrite El, El1, app_assoc|].
  rewrite own_app, latest_app, Hv. change (balance_of w1 T C) with (rb w1). rewrite Hv1. by destruct (latest _ (own_events C l)).
Qed.
End real.

Theorem follw_tx adv C T fuel t w r w' : reachable adv w -> kind_at w C = Some KConv -> in_account_hands w C ->
  is_connector w C T -> cn_venabled (connector_of w C T) = false -> kind_at w T = Some KIrc \/ kind_at w T = Some KIcx ->
  tx_sender t <> owner_of w C -> run_tx adv fuel t w = Ok (r, w') -> follw C T w w'.
Proof.
  intros Hr K ((a0 & Ha) & Hn) Hs Hv KT Hsnd E. pose proof (no_zero_reachable adv w Hr) as Z0.
  assert (is_contract C = true /\ is_contract T = true /\ rinv C T a0 w) as (HC & HT & J).
  { unfold kind_at in K, KT. destruct (w_scores w !! C) as [sc|] eqn:Hsc; [|done]. destruct (w_scores w !! T) as [st|] eqn:Hst; [|by destruct KT].
    destruct (scores_at _ _ _ _ Hr Hsc) as (x & -> & _). destruct (scores_at _ _ _ _ Hr Hst) as (y & -> & _).
    cbn in K, KT. injection K as K. split; [done|]. split; [done|].
    unfold owner_of, pending_owner_of, is_connector, connector_of, var in *. rewrite Hsc in *.
    split; [done|]. split; [exists sc; split; [done|]|].
    - split; [done|]. split; [done|]. split; [done|]. split; [done|]. split; [done|].
      eapply not_eq_sym. eapply (co_other (SCORE x) sc); [|exact Hs]. by eapply conn_reachable.
    - split; [done|]. exists st. split; [done|]. destruct KT as [[= H]|[= H]]; [by left|by right]. }
  rewrite Ha in Hsnd. destruct t as [n X v m|n a i]; cbn in Hsnd.
  - assert ((X = C /\ m = MAcceptOwnership) \/ ~ (X = C /\ m = MAcceptOwnership)) as [[-> ->]|Hd].
    { destruct (decide (X = C)) as [->|Hne]; [|right; by intros [? _]]. destruct m; try (right; by intros [_ ?]). by left. }
    { by eapply tx_accept. }
    eapply foll_weak. eapply R_exec in E as (_ & E & _); [| |exact J|].
    + apply E. intros [<- _]. done.
    + done.
    + split; [done|]. split; [done|]. split; [intros -> _ ->; by apply Hd|]. intros <-. done.
  - eapply foll_weak. apply deploy_inv in E as (Hz & Hf & _ & E). cbv zeta in E.
    assert (SCORE a <> C) as Hne. { intros <-. unfold kind_at in K. by rewrite Hf in K. }
    assert (SCORE a <> T) as Hne2. { intros <-. unfold kind_at in KT. rewrite Hf in KT. by destruct KT. }
    assert (SCORE a <> zero_score) as Hnz by (intros [= ->]; done).
    set (sc := (init_score i (EOA n) (SCORE a)).1) in *. set (evs := (init_score i (EOA n) (SCORE a)).2) in *.
    assert (foll C T a0 w (wupd (SCORE a) sc evs w)) as F.
    { destruct J as (_ & (sc0 & Hsc & Hh) & _ & st & Hst & P). split.
      - split; [cbn; by rewrite lookup_insert_ne|]. split; [exists sc0; cbn; by rewrite lookup_insert_ne|]. split; [done|].
        exists st. cbn. by rewrite lookup_insert_ne.
      - exists (map (pair (SCORE a)) evs). split; [done|]. rewrite own_other by done. cbn. unfold rb, balance_of, var. cbn. by rewrite lookup_insert_ne. }
    destruct E as [-> |(t & reg & f & cn & wt & -> & _ & E)]; [exact F|]. eapply foll_trans; [exact F|].
    eapply esteps_other; [| | | |apply F|exact E]; [|done|done|done].
    intros. eapply R_exec; eauto.
Qed.
