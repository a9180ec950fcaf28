(* Ranges and domains of the three quotes (integer reasoning only). *)
From Coq Require Import ZArith List String Lia Bool.
From Verif Require Import Res FormulaConsts FormulaModel FormulaInt.
Import ListNotations.
Local Open Scope Z_scope.

Lemma valid_weight_spec w : valid_weight w = true <-> 1 <= w <= 1000000.
Proof. unfold valid_weight. change MAX_WEIGHT with 1000000. rewrite andb_true_iff, Z.leb_le, Z.ltb_lt. lia. Qed.

Lemma power_err bn bd en ed : 2 ^ 129 <= bn -> exists e, power bn bd en ed = Err e.
Proof.
  intros H. unfold power, rrequire. rewrite MAX_NUM_pow.
  destruct (Z.ltb_spec bn (2 ^ 129)); [lia|]. eexists; reflexivity.
Qed.

(* the value (balance * r - balance << p) // r of a sale / cross conversion *)
Lemma reduce_range B r p : 0 < B -> 0 <= p -> 2 ^ p <= r ->
  exists v, py_div (B * r - Z.shiftl B p) r = Ok v /\ 0 <= v < B /\ v = (B * r - B * 2 ^ p) / r.
Proof.
  intros HB Hp Hr. assert (0 < 2 ^ p) by (apply Z.pow_pos_nonneg; lia).
  unfold py_div. destruct (Z.eqb_spec r 0); [lia|].
  rewrite Z.shiftl_mul_pow2 by assumption.
  eexists; split; [reflexivity|]. split; [|reflexivity]. split.
  - apply Z.div_pos; nia.
  - apply Z.div_lt_upper_bound; nia.
Qed.

Lemma purchase_valid S B w d : 0 < S -> 0 < B -> 1 <= w <= 1000000 -> 0 <= d ->
  (d = 0 \/ w = 1000000 \/ d + B < 2 ^ 129) ->
  exists r, calculate_purchase_return S B w d = Ok r /\ 0 <= r /\
    (d = 0 -> r = 0) /\ (w = 1000000 -> r = S * d / B) /\
    (0 < d -> w < 1000000 -> exists rs p, power (d + B) B w 1000000 = Ok (rs, p) /\ 0 <= p <= 127 /\ 2 ^ p <= rs /\
                          r = S * rs / 2 ^ p - S).
Proof.
  intros HS HB Hw Hd Hc. unfold calculate_purchase_return, rrequire.
  rewrite (proj2 (Z.ltb_lt _ _) HS), (proj2 (Z.ltb_lt _ _) HB), (proj2 (valid_weight_spec w) Hw).
  cbn [andb rbind]. change MAX_WEIGHT with 1000000.
  destruct (Z.eqb_spec d 0) as [->|Hd0].
  { exists 0. repeat split; try lia. intros _. rewrite Z.mul_0_r. symmetry. apply Z.div_0_l. lia. }
  destruct (Z.eqb_spec w 1000000) as [->|Hw0].
  { unfold py_div. destruct (Z.eqb_spec B 0); [lia|]. eexists. split; [reflexivity|].
    split; [apply Z.div_pos; nia|]. split; [lia|]. split; [reflexivity|]. lia. }
  destruct (power_ok (d + B) B w 1000000) as (r & p & E & Hp & Hr); try lia.
  { rewrite MAX_NUM_pow. lia. }
  rewrite E. cbn [rbind]. eexists. split; [reflexivity|].
  rewrite Z.shiftr_div_pow2 by lia. assert (0 < 2 ^ p) by (apply Z.pow_pos_nonneg; lia).
  split.
  { assert (S <= S * r / 2 ^ p); [|lia]. apply Z.div_le_lower_bound; nia. }
  split; [lia|]. split; [lia|]. intros _ _. exists r, p. repeat split; try lia; assumption.
Qed.

Lemma purchase_domain S B w d r : 0 <= d -> calculate_purchase_return S B w d = Ok r ->
  0 < S /\ 0 < B /\ 1 <= w <= 1000000 /\ (d = 0 \/ w = 1000000 \/ d + B < 2 ^ 129).
Proof.
  intros Hd. unfold calculate_purchase_return, rrequire.
  destruct (Z.ltb_spec 0 S); [|discriminate]. destruct (Z.ltb_spec 0 B); [|discriminate].
  destruct (valid_weight w) eqn:Hw; [|discriminate]. apply valid_weight_spec in Hw.
  cbn [andb rbind]. intros E. repeat split; try lia. revert E.
  destruct (Z.eqb_spec d 0); [lia|]. change MAX_WEIGHT with 1000000. destruct (Z.eqb_spec w 1000000); [lia|].
  destruct (Z_lt_le_dec (d + B) (2 ^ 129)); [lia|].
  destruct (power_err (d + B) B w 1000000 l) as [e ->]. discriminate.
Qed.

Lemma sale_valid S B w s : 0 < S -> 0 < B -> 1 <= w <= 1000000 -> 0 <= s <= S ->
  (s = 0 \/ s = S \/ w = 1000000 \/ S < 2 ^ 129) ->
  exists r, calculate_sale_return S B w s = Ok r /\ 0 <= r <= B /\ (r = B <-> s = S) /\
    (s = 0 -> r = 0) /\ (w = 1000000 -> r = B * s / S) /\
    (0 < s < S -> w < 1000000 -> exists rs p, power S (S - s) 1000000 w = Ok (rs, p) /\ 0 <= p <= 127 /\ 2 ^ p <= rs /\
                          r = (B * rs - B * 2 ^ p) / rs).
Proof.
  intros HS HB Hw Hs Hc. unfold calculate_sale_return, rrequire.
  rewrite (proj2 (Z.ltb_lt _ _) HS), (proj2 (Z.ltb_lt _ _) HB), (proj2 (valid_weight_spec w) Hw),
    (proj2 (Z.leb_le _ _) (proj2 Hs)).
  cbn [andb rbind]. change MAX_WEIGHT with 1000000.
  destruct (Z.eqb_spec s 0) as [->|Hs0].
  { exists 0. repeat split; try lia. intros _. rewrite Z.mul_0_r. symmetry. apply Z.div_0_l. lia. }
  destruct (Z.eqb_spec s S) as [->|HsS].
  { exists B. repeat split; try lia. intros _. rewrite Z.div_mul; lia. }
  destruct (Z.eqb_spec w 1000000) as [->|Hw0].
  { unfold py_div. destruct (Z.eqb_spec S 0); [lia|]. eexists. split; [reflexivity|].
    assert (0 <= B * s / S) by (apply Z.div_pos; nia).
    assert (B * s / S < B) by (apply Z.div_lt_upper_bound; nia).
    repeat split; try lia. }
  destruct (power_ok S (S - s) 1000000 w) as (r & p & E & Hp & Hr); try lia.
  { rewrite MAX_NUM_pow. lia. }
  rewrite E. cbn [rbind].
  destruct (reduce_range B r p) as (v & Ev & Hv & Hv2); try lia.
  exists v. split; [exact Ev|]. split; [lia|]. split; [lia|]. split; [lia|]. split; [lia|].
  intros _ _. exists r, p. repeat split; try lia; assumption.
Qed.

Lemma sale_domain S B w s r : 0 <= s -> calculate_sale_return S B w s = Ok r ->
  0 < S /\ 0 < B /\ 1 <= w <= 1000000 /\ s <= S /\ (s = 0 \/ s = S \/ w = 1000000 \/ S < 2 ^ 129).
Proof.
  intros Hd. unfold calculate_sale_return, rrequire.
  destruct (Z.ltb_spec 0 S); [|discriminate]. destruct (Z.ltb_spec 0 B); [|discriminate].
  destruct (valid_weight w) eqn:Hw; [|discriminate]. apply valid_weight_spec in Hw.
  destruct (Z.leb_spec s S); [|discriminate].
  cbn [andb rbind]. intros E. repeat split; try lia. revert E.
  destruct (Z.eqb_spec s 0); [lia|]. destruct (Z.eqb_spec s S); [lia|].
  change MAX_WEIGHT with 1000000. destruct (Z.eqb_spec w 1000000); [lia|].
  destruct (Z_lt_le_dec S (2 ^ 129)); [lia|].
  destruct (power_err S (S - s) 1000000 w l) as [e ->]. discriminate.
Qed.

Lemma cross_valid B1 w1 B2 w2 a : 0 < B1 -> 0 < B2 -> 1 <= w1 <= 1000000 -> 1 <= w2 <= 1000000 -> 0 <= a ->
  (w1 = w2 \/ B1 + a < 2 ^ 129) ->
  exists r, calculate_cross_connector_return B1 w1 B2 w2 a = Ok r /\ 0 <= r < B2 /\
    (w1 = w2 -> r = B2 * a / (B1 + a)) /\
    (w1 <> w2 -> exists rs p, power (B1 + a) B1 w1 w2 = Ok (rs, p) /\ 0 <= p <= 127 /\ 2 ^ p <= rs /\
                          r = (B2 * rs - B2 * 2 ^ p) / rs).
Proof.
  intros HB1 HB2 Hw1 Hw2 Ha Hc. unfold calculate_cross_connector_return, rrequire.
  rewrite (proj2 (Z.ltb_lt _ _) HB1), (proj2 (Z.ltb_lt _ _) HB2), (proj2 (valid_weight_spec w1) Hw1),
    (proj2 (valid_weight_spec w2) Hw2).
  cbn [andb rbind].
  destruct (Z.eqb_spec w1 w2) as [->|Hw].
  { unfold py_div. destruct (Z.eqb_spec (B1 + a) 0); [lia|]. eexists. split; [reflexivity|].
    assert (0 <= B2 * a / (B1 + a)) by (apply Z.div_pos; nia).
    assert (B2 * a / (B1 + a) < B2) by (apply Z.div_lt_upper_bound; nia).
    repeat split; try lia. }
  destruct (power_ok (B1 + a) B1 w1 w2) as (r & p & E & Hp & Hr); try lia.
  { rewrite MAX_NUM_pow. lia. }
  rewrite E. cbn [rbind].
  destruct (reduce_range B2 r p) as (v & Ev & Hv & Hv2); try lia.
  exists v. split; [exact Ev|]. split; [lia|]. split; [lia|].
  intros _. exists r, p. repeat split; try lia; assumption.
Qed.

Lemma cross_domain B1 w1 B2 w2 a r : 0 <= a -> calculate_cross_connector_return B1 w1 B2 w2 a = Ok r ->
  0 < B1 /\ 0 < B2 /\ 1 <= w1 <= 1000000 /\ 1 <= w2 <= 1000000 /\ (w1 = w2 \/ B1 + a < 2 ^ 129).
Proof.
  intros Ha. unfold calculate_cross_connector_return, rrequire.
  destruct (Z.ltb_spec 0 B1); [|discriminate].
  destruct (valid_weight w1) eqn:Hw1; [|discriminate]. apply valid_weight_spec in Hw1.
  destruct (Z.ltb_spec 0 B2); [|discriminate].
  destruct (valid_weight w2) eqn:Hw2; [|discriminate]. apply valid_weight_spec in Hw2.
  cbn [andb rbind]. intros E. repeat split; try lia. revert E.
  destruct (Z.eqb_spec w1 w2); [lia|].
  destruct (Z_lt_le_dec (B1 + a) (2 ^ 129)); [lia|].
  destruct (power_err (B1 + a) B1 w1 w2 l) as [e ->]. discriminate.
Qed.
