From Coq Require Import ZArith List String Lia Bool.
From Verif Require Import Res FormulaConsts FormulaModel FormulaInt GeneratorModel.
Import ListNotations.
Local Open Scope Z_scope.

(* ---------- the search ---------- *)
Lemma binary_search_loop_ok f func : forall lo hi, 0 <= lo -> lo < hi -> hi - lo <= 2 ^ Z.of_nat f ->
  exists lo', binary_search_loop f func lo hi = Ok (lo', lo' + 1) /\ lo <= lo' < hi /\
    (lo' = lo \/ func lo' = true) /\ (lo' + 1 = hi \/ func (lo' + 1) = false).
Proof.
  induction f as [|f IH]; intros lo hi H0 H1 H2; cbn [binary_search_loop].
  - change (2 ^ Z.of_nat 0) with 1 in H2. assert (hi = lo + 1) by lia. subst hi. rewrite Z.ltb_irrefl.
    exists lo. repeat split; try lia; left; reflexivity.
  - destruct (Z.ltb_spec (lo + 1) hi) as [L|L].
    + rewrite Nat2Z.inj_succ, Z.pow_succ_r in H2 by lia. cbv zeta.
      pose proof (Z.div_mod (lo + hi) 2 ltac:(lia)). pose proof (Z.mod_pos_bound (lo + hi) 2 ltac:(lia)).
      set (mid := (lo + hi) / 2) in *.
      destruct (func mid) eqn:Em.
      * destruct (IH mid hi ltac:(lia) ltac:(lia) ltac:(lia)) as (l' & E & B & C & D).
        exists l'. repeat split; try assumption; try lia. destruct C as [->|C]; [right; exact Em|right; exact C].
      * destruct (IH lo mid ltac:(lia) ltac:(lia) ltac:(lia)) as (l' & E & B & C & D).
        exists l'. repeat split; try assumption; try lia. destruct D as [->|D]; [right; exact Em|right; exact D].
    + assert (hi = lo + 1) by lia. subst hi.
      exists lo. repeat split; try lia; left; reflexivity.
Qed.

Lemma binary_search_max func :
  func 0 = true ->
  (forall x y, 0 <= x <= y -> y < 2 ^ 256 -> func y = true -> func x = true) ->
  exists r, binary_search func = Ok r /\ 0 <= r < 2 ^ 256 /\ func r = true /\
            forall x, r < x < 2 ^ 256 -> func x = false.
Proof.
  intros H0 Hm. unfold binary_search.
  destruct (binary_search_loop_ok 256 func 0 (2 ^ 256 - 1)) as (lo & E & B & C & D).
  { lia. } { reflexivity. } { change (2 ^ Z.of_nat 256) with (2 ^ 256). lia. }
  rewrite E. cbn [rbind]. destruct (func (lo + 1)) eqn:E1.
  - exists (lo + 1). destruct D as [D|D]; [|congruence].
    split; [reflexivity|]. split; [lia|]. split; [exact E1|]. intros x Hx. lia.
  - assert (func lo = true) as E2 by (destruct C as [->|C]; assumption).
    rewrite E2. exists lo. split; [reflexivity|]. split; [lia|]. split; [exact E2|].
    intros x Hx. destruct (func x) eqn:Ex; [|reflexivity].
    assert (func (lo + 1) = true) by (apply (Hm (lo + 1) x); try lia; assumption). congruence.
Qed.

(* ---------- checked arithmetic ---------- *)
Lemma safe_add_ok x y v : safe_add x y = Ok v <-> x + y < 2 ^ 256 /\ v = x + y.
Proof.
  unfold safe_add. destruct (Z.ltb_spec (x + y) (2 ^ 256)) as [L|L]; split.
  - intros H. apply Ok_inj in H. lia.
  - intros [_ ->]. reflexivity.
  - discriminate.
  - lia.
Qed.
Lemma safe_mul_ok x y v : safe_mul x y = Ok v <-> x * y < 2 ^ 256 /\ v = x * y.
Proof.
  unfold safe_mul. destruct (Z.ltb_spec (x * y) (2 ^ 256)) as [L|L]; split.
  - intros H. apply Ok_inj in H. lia.
  - intros [_ ->]. reflexivity.
  - discriminate.
  - lia.
Qed.

Lemma rbind_ok {A B} (m : res A) (f : A -> res B) v : rbind m f = Ok v <-> exists a, m = Ok a /\ f a = Ok v.
Proof.
  destruct m as [a|e]; cbn [rbind]; split.
  - intros H. exists a. split; [reflexivity|exact H].
  - intros (a' & E & H). apply Ok_inj in E. subst. exact H.
  - discriminate.
  - intros (a' & E & _). discriminate.
Qed.

(* the checked loop succeeds for every smaller argument, and computes the unchecked loop *)
Lemma checked_loop_mono l p : 0 <= p -> Forall (fun c => 0 <= c) l ->
  forall x xi acc v x' xi' acc', 0 <= x' <= x -> 0 <= xi' <= xi -> 0 <= acc' <= acc ->
  g_general_exp_loop l x p xi acc = Ok v ->
  exists v', g_general_exp_loop l x' p xi' acc' = Ok v' /\ 0 <= v' <= v /\ v' = general_exp_loop l x' p xi' acc'.
Proof.
  intros Hp Hl. induction Hl as [|c l Hc Hl IH]; intros x xi acc v x' xi' acc' Hx Hxi Hacc E.
  - cbn in E |- *. apply Ok_inj in E. subst v. exists acc'. repeat split; try lia.
  - cbn [g_general_exp_loop general_exp_loop] in *.
    apply rbind_ok in E. destruct E as (m & E1 & E). apply safe_mul_ok in E1. destruct E1 as [B1 ->].
    cbv zeta in *.
    apply rbind_ok in E. destruct E as (t & E2 & E). apply safe_mul_ok in E2. destruct E2 as [B2 ->].
    apply rbind_ok in E. destruct E as (a & E3 & E). apply safe_add_ok in E3. destruct E3 as [B3 ->].
    assert (0 <= xi' * x' <= xi * x) as M by nia.
    assert (0 <= Z.shiftr (xi' * x') p <= Z.shiftr (xi * x) p) as S.
    { rewrite !Z.shiftr_div_pow2 by assumption. split; [apply Z.div_pos; [lia|apply Z.pow_pos_nonneg; lia]|].
      apply Z.div_le_mono; [apply Z.pow_pos_nonneg; lia|lia]. }
    assert (0 <= Z.shiftr (xi' * x') p * c <= Z.shiftr (xi * x) p * c) as T by nia.
    destruct (IH x (Z.shiftr (xi * x) p) (acc + Z.shiftr (xi * x) p * c) v
                 x' (Z.shiftr (xi' * x') p) (acc' + Z.shiftr (xi' * x') p * c) Hx S ltac:(lia) E)
      as (v' & E' & Bv & Ev).
    exists v'. split; [|split; assumption].
    rewrite (proj2 (safe_mul_ok (xi') x' (xi' * x'))) by (split; [lia|reflexivity]). cbn [rbind].
    rewrite (proj2 (safe_mul_ok _ c (Z.shiftr (xi' * x') p * c))) by (split; [lia|reflexivity]). cbn [rbind].
    rewrite (proj2 (safe_add_ok acc' _ (acc' + Z.shiftr (xi' * x') p * c))) by (split; [lia|reflexivity]). cbn [rbind].
    exact E'.
Qed.

Definition formula_coefs : list Z := general_exp_divisor :: general_exp_coefs.

Lemma general_exp_coefs_nonneg : Forall (fun c => 0 <= c) general_exp_coefs.
Proof.
  assert (forallb (fun c => 0 <=? c) general_exp_coefs = true) as H by (vm_compute; reflexivity).
  rewrite forallb_forall in H. apply Forall_forall. intros c Hc. apply Z.leb_le. auto.
Qed.

Lemma checked_general_exp_mono p x x' v : 0 <= p -> 0 <= x' <= x ->
  g_general_exp x formula_coefs p = Ok v ->
  g_general_exp x' formula_coefs p = Ok (general_exp x' p).
Proof.
  intros Hp Hx E. unfold g_general_exp, formula_coefs in *.
  apply rbind_ok in E. destruct E as (a & E1 & E).
  apply rbind_ok in E. destruct E as (s & E2 & E).
  apply safe_add_ok in E2. destruct E2 as [B2 ->]. apply safe_add_ok in E. destruct E as [B3 _].
  destruct (checked_loop_mono _ p Hp general_exp_coefs_nonneg x x 0 a x' x' 0 Hx Hx ltac:(lia) E1) as (v' & E' & Bv & Ev).
  rewrite E'. cbn [rbind].
  assert (v' / general_exp_divisor <= a / general_exp_divisor) by (apply Z.div_le_mono; [reflexivity|lia]).
  rewrite (proj2 (safe_add_ok (v' / general_exp_divisor) x' _)) by (split; [lia|reflexivity]). cbn [rbind].
  apply safe_add_ok. split; [lia|]. unfold general_exp. rewrite <- Ev. reflexivity.
Qed.

(* the endpoints: 96 evaluations of closed terms *)
Definition endpoint_ok (p : Z) : bool :=
  let m := Z.shiftr (table p) (127 - p) in
  succeeds (g_general_exp m formula_coefs p) && negb (succeeds (g_general_exp (m + 1) formula_coefs p))
  && (table p =? Z.shiftl (m + 1) (127 - p) - 1) && (m + 1 <? 2 ^ 256).
Lemma endpoints : forallb (fun n => endpoint_ok (Z.of_nat n)) (seq 32 96) = true.
Proof. vm_compute. reflexivity. Qed.

Lemma endpoint p : 32 <= p <= 127 -> endpoint_ok p = true.
Proof.
  intros H. pose proof endpoints as A. rewrite forallb_forall in A.
  specialize (A (Z.to_nat p)). rewrite in_seq in A. specialize (A ltac:(lia)).
  rewrite Z2Nat.id in A by lia. exact A.
Qed.

Lemma general_exp_no_overflow p x : 32 <= p <= 127 -> 0 <= x <= Z.shiftr (table p) (127 - p) ->
  g_general_exp x formula_coefs p = Ok (general_exp x p).
Proof.
  intros Hp Hx. pose proof (endpoint p Hp) as E. unfold endpoint_ok in E. cbv zeta in E.
  rewrite !andb_true_iff in E. destruct E as [[[E _] _] _].
  destruct (g_general_exp (Z.shiftr (table p) (127 - p)) formula_coefs p) as [v|] eqn:Ev; [|discriminate].
  eapply checked_general_exp_mono; [lia|exact Hx|exact Ev].
Qed.

Lemma general_exp_overflow_beyond p x : 32 <= p <= 127 -> Z.shiftr (table p) (127 - p) < x ->
  exists e, g_general_exp x formula_coefs p = Err e.
Proof.
  intros Hp Hx. pose proof (endpoint p Hp) as E. unfold endpoint_ok in E. cbv zeta in E.
  rewrite !andb_true_iff in E. destruct E as [[[_ E] _] _].
  destruct (g_general_exp x formula_coefs p) as [v|e] eqn:Ev; [|exists e; reflexivity].
  assert (0 <= Z.shiftr (table p) (127 - p)) as N.
  { apply Z.shiftr_nonneg. unfold table. assert (forallb (fun o => match o with Some v => 0 <=? v | None => true end) max_exp_array = true) as A by (vm_compute; reflexivity).
    rewrite forallb_forall in A. destruct (nth_error max_exp_array (Z.to_nat p)) as [o|] eqn:Eo; [|lia].
    specialize (A o (nth_error_In _ _ Eo)). destruct o; [apply Z.leb_le; exact A|lia]. }
  rewrite (checked_general_exp_mono p x (Z.shiftr (table p) (127 - p) + 1) v) in E; [|lia|lia|exact Ev].
  discriminate.
Qed.

Lemma coefficients_generated : get_coefficients G_NUM_OF_COEFFICIENTS = formula_coefs.
Proof. vm_compute. reflexivity. Qed.

Lemma table_generated p : 32 <= p <= 127 ->
  max_exp_entry_shl (get_coefficients G_NUM_OF_COEFFICIENTS) p = Ok (table p).
Proof.
  intros Hp. rewrite coefficients_generated. unfold max_exp_entry_shl, max_exp_entry.
  destruct (binary_search_max (fun x => succeeds (g_general_exp x formula_coefs p))) as (r & E & B & T & M).
  - rewrite general_exp_no_overflow; [reflexivity|exact Hp|].
    split; [lia|]. pose proof (endpoint p Hp) as E. unfold endpoint_ok in E. cbv zeta in E.
    rewrite !andb_true_iff in E. destruct E as [[[_ E] _] _].
    destruct (Z_lt_le_dec (Z.shiftr (table p) (127 - p)) 0) as [L|L]; [|exact L].
    exfalso. assert (0 <= table p).
    { unfold table. assert (forallb (fun o => match o with Some v => 0 <=? v | None => true end) max_exp_array = true) as A by (vm_compute; reflexivity).
      rewrite forallb_forall in A. destruct (nth_error max_exp_array (Z.to_nat p)) as [o|] eqn:Eo; [|lia].
      specialize (A o (nth_error_In _ _ Eo)). destruct o; [apply Z.leb_le; exact A|lia]. }
    apply (Z.shiftr_nonneg _ (127 - p)) in H. lia.
  - intros x y Hxy _ Hy.
    destruct (g_general_exp y formula_coefs p) as [v|] eqn:Ev; [|discriminate].
    rewrite (checked_general_exp_mono p y x v); [reflexivity|lia|lia|exact Ev].
  - rewrite E. cbn [rbind]. f_equal.
    pose proof (endpoint p Hp) as EP. unfold endpoint_ok in EP. cbv zeta in EP.
    rewrite !andb_true_iff in EP. destruct EP as [[[E1 E2] E3] E4].
    apply Z.eqb_eq in E3. apply Z.ltb_lt in E4.
    assert (r = Z.shiftr (table p) (127 - p)) as ->.
    { destruct (Z.lt_trichotomy r (Z.shiftr (table p) (127 - p))) as [L|[L|L]]; [|exact L|].
      - rewrite M in E1; [discriminate|lia].
      - destruct (general_exp_overflow_beyond p r Hp L) as [e Ee]. rewrite Ee in T. discriminate. }
    symmetry. exact E3.
Qed.

Lemma scaling_factors : FIXED_1 = Z.shiftl 1 G_MAX_PRECISION /\ FIXED_2 = Z.shiftl 2 G_MAX_PRECISION /\
  MAX_NUM = Z.shiftl 1 (256 - G_MAX_PRECISION) /\ MIN_PRECISION = G_MIN_PRECISION /\ MAX_PRECISION = G_MAX_PRECISION.
Proof. repeat split; reflexivity. Qed.

(* low terms of optimal_log / optimal_exp from the generators' loops, given the high terms in the code *)
Definition log_hi_terms : list (Z * Z) := (OPT_LOG_MAX_VAL, FIXED_1) :: map (fun '(t, a, d) => (d, a)) optimal_log_hi.
Lemma log_lo_terms_generated : g_log_lo_terms log_hi_terms FIXED_1 = Ok optimal_log_lo.
Proof. vm_compute. reflexivity. Qed.
Lemma exp_lo_terms_generated :
  g_exp_lo_terms optimal_exp_hi OPT_EXP_MAX_VAL FIXED_1 = Ok (optimal_exp_divisor :: optimal_exp_coefs).
Proof. vm_compute. reflexivity. Qed.
