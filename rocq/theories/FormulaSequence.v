(* No sequence of trades drains a converter: the potential  sum of w_i ln B_i - 10^6 ln S  never falls by more than
   8 10^6 / 2^127 per trade. *)
From Coq Require Import ZArith List Lia Bool Reals Lra String.
From Verif Require Import Res FormulaConsts FormulaModel FormulaInt FormulaQuotes RealTools FormulaReal FormulaTrade PoolSpec.
Import ListNotations.
Local Open Scope R_scope.
Local Ltac done := solve [easy | assumption | eauto].
Local Tactic Notation "by" tactic3(t) := t; done.

Definition delta : R := 8000000 / F.
Lemma delta_pos : 0 < delta. Proof. apply Rdiv_lt_0_compat; [lra|apply F_pos]. Qed.

Lemma ln_div' x y : 0 < x -> 0 < y -> ln (x / y) = ln x - ln y.
Proof. intros. unfold Rdiv. rewrite ln_mult, ln_Rinv by (try apply Rinv_0_lt_compat; lra). lra. Qed.

Lemma purchase_log S B w d r : (0 <= d)%Z -> calculate_purchase_return S B w d = Ok r ->
  1000000 * (ln (IZR (S + r)) - ln (IZR S)) <= IZR w * (ln (IZR (B + d)) - ln (IZR B)) + delta.
Proof.
  intros Hd E. pose proof (purchase_upper _ _ _ _ _ Hd E) as U.
  destruct (purchase_domain S B w d r Hd E) as (HS & HB & Hw & Hc).
  destruct (purchase_valid S B w d HS HB Hw Hd Hc) as (r' & E' & Hr & _).
  rewrite E in E'. apply Ok_inj in E'. subst r'.
  assert (0 < IZR S) by (apply IZR_lt; lia). assert (0 < IZR B) by (apply IZR_lt; lia). assert (0 <= IZR d) by (apply IZR_le; lia).
  assert (0 <= IZR r) by (apply IZR_le; lia). assert (0 < IZR (B + d)) by (apply IZR_lt; lia).
  rewrite plus_IZR. apply ln_le_compat in U; [|lra]. unfold Rpower in U.
  rewrite !ln_mult in U by (try apply Rmult_lt_0_compat; try apply exp_pos; lra). rewrite !ln_exp in U.
  replace (1 + IZR d / IZR B) with (IZR (B + d) / IZR B) in U by (rewrite plus_IZR; field; lra).
  rewrite ln_div' in U by lra. unfold delta. rewrite F_pow.
  replace (IZR w * (ln (IZR (B + d)) - ln (IZR B))) with (1000000 * (IZR w / 1000000 * (ln (IZR (B + d)) - ln (IZR B)))) by field.
  replace (8000000 / 2 ^ 127) with (1000000 * (8 / 2 ^ 127)) by (field; apply pow_nonzero; lra). lra.
Qed.

(* what is left of a balance B after paying what the reduced quote gives *)
Lemma reduce_log B r p x : (0 < B)%Z -> (0 <= p)%Z -> (2 ^ p <= r)%Z -> IZR r / IZR (2 ^ p) <= exp x ->
  ln (IZR B) - ln (IZR (B - (B * r - B * 2 ^ p) / r)) <= x.
Proof.
  intros HB Hp Hr HT. pose proof (reduce_upper B r p _ HB Hp Hr HT) as U. assert (0 < IZR B) by (apply IZR_lt; lia).
  pose proof (exp_pos x). rewrite minus_IZR. set (v := IZR (_ / _)) in *.
  assert (0 < IZR B / exp x) by (apply Rdiv_lt_0_compat; lra).
  assert (ln (IZR B / exp x) <= ln (IZR B - v)) as K by (apply ln_le_compat; lra).
  rewrite ln_div', ln_exp in K by lra. lra.
Qed.

Lemma sale_log S B w s r : (0 <= s < S)%Z -> calculate_sale_return S B w s = Ok r ->
  IZR w * (ln (IZR B) - ln (IZR (B - r))) <= 1000000 * (ln (IZR S) - ln (IZR (S - s))) + delta.
Proof.
  intros Hs E. destruct (sale_domain S B w s r ltac:(lia) E) as (HS & HB & Hw & _ & Hc).
  destruct (sale_valid S B w s HS HB Hw ltac:(lia) Hc) as (r' & E' & Hr & Hdr & P0 & P1 & P2).
  rewrite E in E'. apply Ok_inj in E'. subst r'. pose proof delta_pos.
  assert (0 < IZR S) by (apply IZR_lt; lia). assert (0 < IZR B) by (apply IZR_lt; lia). assert (0 < IZR (S - s)) by (apply IZR_lt; lia).
  assert (0 < IZR w) by (apply IZR_lt; lia).
  destruct (Z.eq_dec s 0) as [->|Ns]. { rewrite (P0 eq_refl), !Z.sub_0_r. lra. }
  destruct (Z.eq_dec w 1000000) as [->|Nw].
  { assert (r < B)%Z by lia. assert (0 < IZR (B - r)) by (apply IZR_lt; lia).
    assert (ln (IZR B * IZR (S - s)) <= ln (IZR (B - r) * IZR S)) as K.
    { apply ln_le_compat; [apply Rmult_lt_0_compat; lra|]. rewrite <- !mult_IZR. apply IZR_le.
      rewrite (P1 eq_refl). pose proof (Z.mul_div_le (B * s) S ltac:(lia)). nia. }
    rewrite !ln_mult in K by lra. lra. }
  destruct (P2 ltac:(lia) ltac:(lia)) as (rs & p & Ep & Hp & Hrs & ->).
  apply power_upper in Ep; [|lia|lia|lia]. apply (reduce_log B) in Ep; [|lia|lia|done]. rewrite ln_div' in Ep by lra.
  apply Rmult_le_compat_l with (r := IZR w) in Ep; [|lra]. eapply Rle_trans; [exact Ep|]. right. unfold delta. field. split; [|lra].
  pose proof F_pos. lra.
Qed.

Lemma cross_log B1 w1 B2 w2 a r : (0 <= a)%Z -> calculate_cross_connector_return B1 w1 B2 w2 a = Ok r ->
  IZR w2 * (ln (IZR B2) - ln (IZR (B2 - r))) <= IZR w1 * (ln (IZR (B1 + a)) - ln (IZR B1)) + delta.
Proof.
  intros Ha E. destruct (cross_domain _ _ _ _ _ _ Ha E) as (HB1 & HB2 & Hw1 & Hw2 & Hc).
  destruct (cross_valid B1 w1 B2 w2 a HB1 HB2 Hw1 Hw2 Ha Hc) as (r' & E' & Hr & P1 & P2).
  rewrite E in E'. apply Ok_inj in E'. subst r'. pose proof delta_pos. pose proof F_pos.
  assert (0 < IZR B1) by (apply IZR_lt; lia). assert (0 < IZR B2) by (apply IZR_lt; lia). assert (0 < IZR (B1 + a)) by (apply IZR_lt; lia).
  assert (0 < IZR (B2 - r)) by (apply IZR_lt; lia). assert (0 < IZR w2) by (apply IZR_lt; lia). assert (0 < IZR w1 <= 1000000) by (split; [apply IZR_lt|apply IZR_le]; lia).
  destruct (Z.eq_dec w1 w2) as [->|Nw].
  { assert (ln (IZR B2 * IZR B1) <= ln (IZR (B2 - r) * IZR (B1 + a))) as K.
    { apply ln_le_compat; [apply Rmult_lt_0_compat; lra|]. rewrite <- !mult_IZR. apply IZR_le.
      rewrite (P1 eq_refl). pose proof (Z.mul_div_le (B2 * a) (B1 + a) ltac:(lia)). nia. }
    rewrite !ln_mult in K by lra. nra. }
  destruct (P2 Nw) as (rs & p & Ep & Hp & Hrs & ->).
  apply power_upper in Ep; [|lia|lia|lia]. apply (reduce_log B2) in Ep; [|lia|lia|done]. rewrite ln_div' in Ep by lra.
  apply Rmult_le_compat_l with (r := IZR w2) in Ep; [|lra]. eapply Rle_trans; [exact Ep|].
  replace (IZR w2 * (IZR w1 / IZR w2 * (ln (IZR (B1 + a)) - ln (IZR B1) + 8 / F))) with (IZR w1 * (ln (IZR (B1 + a)) - ln (IZR B1)) + IZR w1 * (8 / F)) by (field; lra).
  assert (delta = 1000000 * (8 / F)) as -> by (unfold delta; field; lra). assert (0 < 8 / F) by (apply Rdiv_lt_0_compat; lra). nra.
Qed.

Section sequence.
Context {I : Type} (conns : list I) (weight : I -> Z).
Hypothesis distinct : NoDup conns.
Hypothesis weights : forall i, In i conns -> (1 <= weight i <= 1000000)%Z.

Fixpoint wsum (f : I -> Z) (l : list I) : R := match l with [] => 0 | i :: l' => IZR (weight i) * ln (IZR (f i)) + wsum f l' end.
Definition potential (p : pool I) : R := wsum (reserve_of p) conns - 1000000 * ln (IZR (supply p)).
Local Notation funded := (funded conns).

Lemma wsum_same f g l : (forall k, In k l -> g k = f k) -> wsum g l = wsum f l.
Proof. induction l as [|i l IH]; intros H; [done|]. cbn. rewrite IH, H; [done|by left|]. intros k Hk. apply H. by right. Qed.
Lemma wsum_moved i x f g : In i conns -> moved i x f g -> wsum g conns = wsum f conns + IZR (weight i) * (ln (IZR (f i + x)) - ln (IZR (f i))).
Proof.
  intros Hi [E1 E2]. revert Hi distinct. clear weights. induction conns as [|k l IH]; [done|]. intros Hi Hd.
  apply NoDup_cons_iff in Hd as [Hk Hd]. cbn. destruct Hi as [->|Hi].
  - rewrite E1, (wsum_same f g l); [lra|]. intros k Hk'. apply E2. by intros ->.
  - rewrite (IH Hi Hd), (E2 k); [lra|]. by intros ->.
Qed.

(* a balance that moved by x, if it stays positive *)
Lemma moved_positive i x f g : moved i x f g -> (0 < f i + x)%Z -> (forall k, In k conns -> 0 < f k)%Z -> forall k, In k conns -> (0 < g k)%Z.
Proof.
  intros [E1 E2] Hx Hf k Hk. destruct (Z_lt_dec 0 (g k)) as [|N]; [done|]. exfalso. assert (k <> i) as Nk by (intros ->; lia).
  rewrite (E2 k Nk) in N. by apply N, Hf.
Qed.
Lemma ln_mono x y : (0 < x <= y)%Z -> ln (IZR x) <= ln (IZR y).
Proof. intros. apply ln_le_compat; [apply IZR_lt; lia|apply IZR_le; lia]. Qed.
Lemma weight_pos i : In i conns -> 0 < IZR (weight i).
Proof. intros Hi. apply IZR_lt. pose proof (weights i Hi). lia. Qed.

Lemma gift_keeps p q : funded p -> gift conns p q -> (0 < supply q)%Z -> funded q /\ potential p <= potential q.
Proof.
  intros [HS HB] H HSq. destruct H as [i x p q Hi Hx Es Hm|x p q Hx Es Er].
  - pose proof (HB i Hi). split; [split; [done|]|].
    + eapply moved_positive; [exact Hm|lia|done].
    + unfold potential. rewrite (wsum_moved _ _ _ _ Hi Hm), Es. pose proof (weight_pos i Hi).
      pose proof (ln_mono (reserve_of p i) (reserve_of p i + x) ltac:(lia)). nra.
  - split; [split; [done|]|].
    + intros k Hk. rewrite Er. by apply HB.
    + unfold potential. rewrite (wsum_same (reserve_of p) (reserve_of q) conns) by (intros; apply Er).
      pose proof (ln_mono (supply q) (supply p) ltac:(lia)). lra.
Qed.
Lemma trade_keeps p q : funded p -> trade conns weight p q -> (0 < supply q)%Z -> funded q /\ potential p - delta <= potential q.
Proof.
  intros [HS HB] H HSq. destruct H as [i d r got p q Hi Hd E Hg Es Hm|i s r got p q Hi Hs E Hg Es Hm|i j a r got p q f Hi Hj Hij Ha E Hg Es Hm1 Hm2].
  - pose proof (HB i Hi). split; [split; [done|]|].
    + eapply moved_positive; [exact Hm|lia|done].
    + unfold potential. rewrite (wsum_moved _ _ _ _ Hi Hm). pose proof (purchase_log _ _ _ _ _ Hd E).
      pose proof (ln_mono (supply q) (supply p + r) ltac:(lia)). lra.
  - pose proof (HB i Hi). destruct (sale_domain _ _ _ _ _ Hs E) as (_ & _ & Hw & Hs' & Hc).
    destruct (sale_valid _ _ _ s HS (HB i Hi) Hw (conj Hs Hs') Hc) as (r' & E' & Hr & Hdr & _).
    rewrite E in E'. apply Ok_inj in E'. subst r'. assert (r < reserve_of p i)%Z by lia. split; [split; [done|]|].
    + eapply moved_positive; [exact Hm|lia|done].
    + unfold potential. rewrite (wsum_moved _ _ _ _ Hi Hm), Es. assert (0 <= s < supply p)%Z as Hss by lia. pose proof (sale_log _ _ _ _ _ Hss E).
      pose proof (ln_mono (reserve_of p i - r) (reserve_of p i + - got) ltac:(lia)). pose proof (weight_pos i Hi). nra.
  - pose proof (HB i Hi). pose proof (HB j Hj). destruct (cross_domain _ _ _ _ _ _ Ha E) as (_ & _ & Hw1 & Hw2 & Hc).
    destruct (cross_valid (reserve_of p i) (weight i) (reserve_of p j) (weight j) a ltac:(done) ltac:(done) Hw1 Hw2 Ha Hc) as (r' & E' & Hr & _).
    rewrite E in E'. apply Ok_inj in E'. subst r'.
    assert (f j = reserve_of p j) as Ej by (apply Hm1; congruence).
    assert (forall k, In k conns -> 0 < f k)%Z as Hf by (eapply moved_positive; [exact Hm1|lia|done]). split; [split; [done|]|].
    + eapply moved_positive; [exact Hm2|lia|done].
    + unfold potential. rewrite (wsum_moved _ _ _ _ Hj Hm2), (wsum_moved _ _ _ _ Hi Hm1), Es, Ej. pose proof (cross_log _ _ _ _ _ _ Ha E).
      pose proof (ln_mono (reserve_of p j - r) (reserve_of p j + - got) ltac:(lia)). pose proof (weight_pos j Hj). nra.
Qed.

(* once all flexible tokens are gone there are none forever *)
Lemma trade_supply p q : trade conns weight p q -> (0 < supply q)%Z -> (0 < supply p)%Z.
Proof.
  intros H Hq. destruct H as [i d r got p q Hi Hd E Hg Es Hm|i s r got p q Hi Hs E Hg Es Hm|i j a r got p q f Hi Hj Hij Ha E Hg Es Hm1 Hm2].
  - apply purchase_domain in E as (? & _); [lia|done].
  - apply sale_domain in E as (? & _ & _ & ? & _); [lia|done].
  - lia.
Qed.
Lemma gift_supply p q : gift conns p q -> (0 < supply q)%Z -> (0 < supply p)%Z.
Proof. intros H Hq. destruct H; lia. Qed.

Theorem trades_keep n p q : trades conns weight n p q -> funded p -> (0 < supply q)%Z -> funded q /\ potential p - INR n * delta <= potential q.
Proof.
  induction 1 as [p q Es Er|n p q q' H' IH H|n p q q' H' IH H]; intros Hp Hq.
  - destruct Hp as [HS HB]. split; [split; [done|]; intros i Hi; rewrite Er; by apply HB|].
    unfold potential. rewrite (wsum_same (reserve_of p) (reserve_of q) conns) by (intros; apply Er). rewrite Es. cbn. lra.
  - destruct (IH Hp (trade_supply _ _ H Hq)) as [IH1 IH2]. destruct (trade_keeps _ _ IH1 H Hq) as [? ?]. split; [done|]. rewrite S_INR. lra.
  - destruct (IH Hp (gift_supply _ _ H Hq)) as [IH1 IH2]. destruct (gift_keeps _ _ IH1 H Hq) as [? ?]. split; [done|]. lra.
Qed.

Lemma wsum_le f g l : (forall k, In k l -> 0 < IZR (weight k)) -> (forall k, In k l -> 0 < g k <= f k)%Z -> wsum g l <= wsum f l.
Proof.
  induction l as [|i l IH]; intros Hw H; cbn; [lra|]. pose proof (IH (fun k Hk => Hw k (or_intror Hk)) (fun k Hk => H k (or_intror Hk))).
  pose proof (ln_mono _ _ (H i (or_introl eq_refl))). pose proof (Hw i (or_introl eq_refl)). nra.
Qed.
Lemma wsum_le_but i f g : In i conns -> (forall k, In k conns -> 0 < g k)%Z -> (forall k, In k conns -> k <> i -> g k <= f k)%Z ->
  wsum g conns <= wsum f conns + IZR (weight i) * (ln (IZR (g i)) - ln (IZR (f i))).
Proof.
  intros Hi Hp Hle. revert Hi distinct Hp Hle. pose proof weight_pos as Hw. revert Hw. clear weights. induction conns as [|k l IH]; [done|]. intros Hw Hi Hd Hp Hle.
  apply NoDup_cons_iff in Hd as [Hk Hd]. cbn. destruct Hi as [->|Hi].
  - assert (wsum g l <= wsum f l); [|lra]. apply wsum_le; [intros; apply Hw; by right|]. intros k Hk'. split; [apply Hp; by right|]. apply Hle; [by right|]. by intros ->.
  - assert (k <> i) as Nk by (by intros ->). pose proof (IH (fun k Hk => Hw k (or_intror Hk)) Hi Hd (fun k Hk => Hp k (or_intror Hk)) (fun k Hk => Hle k (or_intror Hk))).
    assert (0 < g k <= f k)%Z as Hg by (split; [apply Hp; by left|apply Hle; [by left|done]]). pose proof (ln_mono _ _ Hg). pose proof (Hw k (or_introl eq_refl)). nra.
Qed.

Theorem trades_value n p q : trades conns weight n p q -> funded p -> (0 < supply q)%Z ->
  1000000 * (ln (IZR (supply q)) - ln (IZR (supply p))) - INR n * (8000000 / 2 ^ 127)
  <= fold_right Rplus 0 (map (fun i => IZR (weight i) * (ln (IZR (reserve_of q i)) - ln (IZR (reserve_of p i)))) conns).
Proof.
  intros H Hp Hq. destruct (trades_keep _ _ _ H Hp Hq) as [_ HP]. unfold potential, delta in HP. rewrite F_pow in HP.
  assert (fold_right Rplus 0 (map (fun i => IZR (weight i) * (ln (IZR (reserve_of q i)) - ln (IZR (reserve_of p i)))) conns)
          = wsum (reserve_of q) conns - wsum (reserve_of p) conns) as ->; [|lra].
  clear. induction conns as [|i l IH]; cbn; [lra|]. rewrite IH. lra.
Qed.

(* x >= y e^-e with y e < 1 for integers *)
Lemma integral x y e : (0 < x)%Z -> (0 < y)%Z -> 0 <= e -> IZR y * e < 1 -> ln (IZR y) - e <= ln (IZR x) -> (y <= x)%Z.
Proof.
  intros Hx Hy He Hs H. assert (0 < IZR x) by (apply IZR_lt; lia). assert (0 < IZR y) by (apply IZR_lt; lia).
  apply exp_le_compat in H. rewrite exp_ln in H by lra. unfold Rminus in H. rewrite exp_plus, exp_ln in H by lra.
  pose proof (exp_ge_1x (- e)). assert (IZR (y - 1) < IZR x) as L by (rewrite minus_IZR; nra). apply lt_IZR in L. lia.
Qed.

Lemma small_loss (n : nat) (y w : Z) : (1 <= w)%Z -> (Z.of_nat n * y * 8000000 < w * 2 ^ 127)%Z -> 0 <= INR n * delta / IZR w /\ IZR y * (INR n * delta / IZR w) < 1.
Proof.
  intros Hw H. pose proof F_pos. assert (0 < IZR w) by (apply IZR_lt; lia). pose proof (pos_INR n). split.
  - apply Rmult_le_pos; [apply Rmult_le_pos; [lra|pose proof delta_pos; lra]|]. apply Rlt_le, Rinv_0_lt_compat. lra.
  - apply IZR_lt in H. rewrite !mult_IZR, <- INR_IZR_INZ in H. assert (IZR (2 ^ 127) = F) as E by (unfold F; rewrite FIXED_1_pow; reflexivity). rewrite E in H.
    unfold delta. apply Rmult_lt_reg_r with (IZR w * F); [apply Rmult_lt_0_compat; lra|].
    replace (IZR y * (INR n * (8000000 / F) / IZR w) * (IZR w * F)) with (INR n * IZR y * 8000000) by (field; lra). lra.
Qed.

(* nothing is taken from reserve j unless tokens were sold or another reserve filled *)
Theorem reserve_kept n p q j : trades conns weight n p q -> funded p -> In j conns ->
  (Z.of_nat n * reserve_of p j * 8000000 < weight j * 2 ^ 127)%Z ->
  (supply p <= supply q)%Z -> (forall k, In k conns -> k <> j -> reserve_of q k <= reserve_of p k)%Z -> (reserve_of p j <= reserve_of q j)%Z.
Proof.
  intros H Hp Hj Hn HS Hk. pose proof Hp as [HpS HpB]. destruct (trades_keep _ _ _ H Hp ltac:(lia)) as [[HqS HqB] HP]. unfold potential in HP.
  pose proof (wsum_le_but j (reserve_of p) (reserve_of q) Hj HqB Hk) as HW. pose proof (ln_mono (supply p) (supply q) ltac:(lia)).
  destruct (small_loss n (reserve_of p j) (weight j) ltac:(pose proof (weights j Hj); lia) Hn) as [K1 K2].
  apply (integral _ _ _ (HqB j Hj) (HpB j Hj) K1 K2). pose proof (weight_pos j Hj).
  assert (IZR (weight j) * (ln (IZR (reserve_of p j)) - INR n * delta / IZR (weight j)) <= IZR (weight j) * ln (IZR (reserve_of q j))) as HH; [|nra].
  replace (IZR (weight j) * (ln (IZR (reserve_of p j)) - INR n * delta / IZR (weight j))) with (IZR (weight j) * ln (IZR (reserve_of p j)) - INR n * delta) by (field; lra). lra.
Qed.

(* no tokens are made unless some reserve was filled *)
Theorem supply_kept n p q : trades conns weight n p q -> funded p -> (Z.of_nat n * supply q * 8 < 2 ^ 127)%Z ->
  (forall k, In k conns -> reserve_of q k <= reserve_of p k)%Z -> (supply q <= supply p)%Z.
Proof.
  intros H Hp Hn Hk. pose proof Hp as [HpS HpB]. destruct (Z_le_gt_dec (supply q) (supply p)) as [|G]; [done|].
  destruct (trades_keep _ _ _ H Hp ltac:(lia)) as [[HqS HqB] HP]. unfold potential in HP.
  pose proof (wsum_le (reserve_of p) (reserve_of q) conns weight_pos (fun k Hk' => conj (HqB k Hk') (Hk k Hk'))).
  destruct (small_loss n (supply q) 1000000 ltac:(lia) ltac:(lia)) as [K1 K2]. apply (integral _ _ _ HpS HqS K1 K2).
  replace (INR n * delta / 1000000) with (INR n * delta * / 1000000) by (unfold Rdiv; ring). lra.
Qed.
End sequence.
