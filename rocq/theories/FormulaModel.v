(* Model of contracts/formula/fixed_map_formula.py, class FixedMapFormula.
   Python integers are unbounded: Z.   // is Z.div (floor, also for negative operands),
   % is Z.modulo (positive divisors only here), >> and << are Z.shiftr / Z.shiftl,
   & and | are Z.land / Z.lor (two's complement, as in Python).
   Divisions by an argument go through [py_div], which fails on 0 as Python does. *)
From Coq Require Import ZArith List String.
From Verif Require Import Res FormulaConsts.
Import ListNotations.
Local Open Scope Z_scope.
Local Open Scope res_scope.

(* fixed_map_formula.py:525-557: the eight consecutive
     if x >= t: res += a; x = x * FIXED_1 // d      (written out in the source, a fold here) *)
Fixpoint optimal_log_hi_loop (l : list (Z * Z * Z)) (x acc : Z) : Z * Z :=
  match l with
  | [] => (x, acc)
  | (t, a, d) :: l' =>
      if t <=? x then optimal_log_hi_loop l' (x * FIXED_1 / d) (acc + a)
      else optimal_log_hi_loop l' x acc
  end.

(* fixed_map_formula.py:561-583: the eight lines  res += z * (n - y) // d , each but the last
   followed by  z = z * w // FIXED_1  (the update after the last term is dead here) *)
Fixpoint optimal_log_lo_loop (l : list (Z * Z)) (y w z acc : Z) : Z :=
  match l with
  | [] => acc
  | (n, d) :: l' => optimal_log_lo_loop l' y w (z * w / FIXED_1) (acc + z * (n - y) / d)
  end.

(* fixed_map_formula.py:510-585 _optimal_log *)
Definition optimal_log (x0 : Z) : Z :=
  let '(x, acc) := optimal_log_hi_loop optimal_log_hi x0 0 in
  let y := x - FIXED_1 in
  let z := y in
  let w := y * y / FIXED_1 in
  optimal_log_lo_loop optimal_log_lo y w z acc.

(* fixed_map_formula.py:605-661: z = z * y // FIXED_1; res += z * c , nineteen times *)
Fixpoint optimal_exp_lo_loop (l : list Z) (y z acc : Z) : Z :=
  match l with
  | [] => acc
  | c :: l' => let z' := z * y / FIXED_1 in optimal_exp_lo_loop l' y z' (acc + z' * c)
  end.

(* fixed_map_formula.py:665-685: if (x & m) != 0: res = res * n // d , seven times *)
Fixpoint optimal_exp_hi_loop (l : list (Z * Z * Z)) (x acc : Z) : Z :=
  match l with
  | [] => acc
  | (m, n, d) :: l' =>
      if negb (Z.land x m =? 0) then optimal_exp_hi_loop l' x (acc * n / d)
      else optimal_exp_hi_loop l' x acc
  end.

(* fixed_map_formula.py:587-687 _optimal_exp *)
Definition optimal_exp (x : Z) : Z :=
  let y := x mod optimal_exp_mod in
  let acc := optimal_exp_lo_loop optimal_exp_coefs y y 0 in
  let acc := acc / optimal_exp_divisor + y + FIXED_1 in
  optimal_exp_hi_loop optimal_exp_hi x acc.

(* fixed_map_formula.py:355-359: while n > 1: n >>= 1; res += 1.  Fuel: the loop is entered with
   n < 256; [floor_log2_small] proves 8 iterations suffice. Out of fuel is an error value. *)
Fixpoint floor_log2_loop1 (fuel : nat) (n acc : Z) : res Z :=
  if 1 <? n then
    match fuel with
    | O => Err "out of fuel"
    | S f => floor_log2_loop1 f (Z.shiftr n 1) (acc + 1)
    end
  else Ok acc.

(* fixed_map_formula.py:362-367: s = 128; while s > 0: if n >= ONE << s: n >>= s; res |= s;  s >>= 1 *)
Fixpoint floor_log2_loop2 (fuel : nat) (s n acc : Z) : res Z :=
  if 0 <? s then
    match fuel with
    | O => Err "out of fuel"
    | S f =>
        if Z.shiftl ONE s <=? n then floor_log2_loop2 f (Z.shiftr s 1) (Z.shiftr n s) (Z.lor acc s)
        else floor_log2_loop2 f (Z.shiftr s 1) n acc
    end
  else Ok acc.

(* fixed_map_formula.py:347-368 _floor_log2 *)
Definition floor_log2 (n : Z) : res Z :=
  if n <? 256 then floor_log2_loop1 8 n 0 else floor_log2_loop2 8 128 n 0.

(* fixed_map_formula.py:337-343: for i in range(127, 0, -1).  [i] is the loop variable as a nat. *)
Fixpoint general_log_loop (i : nat) (x acc : Z) : Z :=
  match i with
  | O => acc
  | S i' =>
      let x := x * x / FIXED_1 in
      if FIXED_2 <=? x
      then general_log_loop i' (Z.shiftr x 1) (acc + Z.shiftl ONE (Z.of_nat i - 1))
      else general_log_loop i' x acc
  end.

(* fixed_map_formula.py:319-345 _general_log *)
Definition general_log (x0 : Z) : res Z :=
  '(x, acc) <-? (if FIXED_2 <=? x0 then
                   count <-? floor_log2 (x0 / FIXED_1);
                   Ok (Z.shiftr x0 count, count * FIXED_1)
                 else Ok (x0, 0));
  let acc := if FIXED_1 <? x then general_log_loop (Z.to_nat MAX_PRECISION) x acc else acc in
  Ok (acc * LN2_NUMERATOR / LN2_DENOMINATOR).

(* self._max_exp_array[i] >= x: an index out of range or a None entry raises *)
Definition max_exp_ge (i x : Z) : res bool :=
  match nth_error max_exp_array (Z.to_nat i) with
  | Some (Some v) => Ok (x <=? v)
  | Some None => Err "TypeError"
  | None => Err "IndexError"
  end.

(* fixed_map_formula.py:382-387: while lo + 1 < hi *)
Fixpoint find_position_loop (fuel : nat) (lo hi x : Z) : res (Z * Z) :=
  if lo + 1 <? hi then
    match fuel with
    | O => Err "out of fuel"
    | S f =>
        let mid := (lo + hi) / 2 in
        b <-? max_exp_ge mid x;
        if b : bool then find_position_loop f mid hi x else find_position_loop f lo mid x
    end
  else Ok (lo, hi).

(* fixed_map_formula.py:370-394 _find_position_in_max_exp_array *)
Definition find_position_in_max_exp_array (x : Z) : res Z :=
  '(lo, hi) <-? find_position_loop 7 MIN_PRECISION MAX_PRECISION x;
  b1 <-? max_exp_ge hi x;
  if b1 : bool then Ok hi else
  b2 <-? max_exp_ge lo x;
  if b2 : bool then Ok lo else Ok 0.

(* fixed_map_formula.py:410-505: xi = (xi * x) >> precision; res += xi * c , thirty-two times *)
Fixpoint general_exp_loop (l : list Z) (x precision xi acc : Z) : Z :=
  match l with
  | [] => acc
  | c :: l' =>
      let xi' := Z.shiftr (xi * x) precision in
      general_exp_loop l' x precision xi' (acc + xi' * c)
  end.

(* fixed_map_formula.py:396-508 _general_exp *)
Definition general_exp (x precision : Z) : Z :=
  general_exp_loop general_exp_coefs x precision x 0 / general_exp_divisor + x + Z.shiftl ONE precision.

(* fixed_map_formula.py:280-317 _power *)
Definition power (base_n base_d exp_n exp_d : Z) : res (Z * Z) :=
  _ <-? rrequire (base_n <? MAX_NUM) "Invalid input";
  base <-? py_div (base_n * FIXED_1) base_d;
  base_log <-? (if base <? OPT_LOG_MAX_VAL then Ok (optimal_log base) else general_log base);
  base_log_times_exp <-? py_div (base_log * exp_n) exp_d;
  if base_log_times_exp <? OPT_EXP_MAX_VAL then
    Ok (optimal_exp base_log_times_exp, MAX_PRECISION)
  else
    precision <-? find_position_in_max_exp_array base_log_times_exp;
    Ok (general_exp (Z.shiftr base_log_times_exp (MAX_PRECISION - precision)) precision, precision).

(* fixed_map_formula.py:193, 224, 265, 267: MAX_WEIGHT >= w > 0 *)
Definition valid_weight (w : Z) : bool := (w <=? MAX_WEIGHT) && (0 <? w).

(* fixed_map_formula.py:177-206 calculate_purchase_return *)
Definition calculate_purchase_return (supply connector_balance connector_weight deposit_amount : Z) : res Z :=
  _ <-? rrequire ((0 <? supply) && (0 <? connector_balance) && valid_weight connector_weight) "Invalid input";
  if deposit_amount =? 0 then Ok 0 else
  if connector_weight =? MAX_WEIGHT then py_div (supply * deposit_amount) connector_balance else
  let base_n := deposit_amount + connector_balance in
  '(result, precision) <-? power base_n connector_balance connector_weight MAX_WEIGHT;
  let temp := Z.shiftr (supply * result) precision in
  Ok (temp - supply).

(* fixed_map_formula.py:208-244 calculate_sale_return *)
Definition calculate_sale_return (supply connector_balance connector_weight sell_amount : Z) : res Z :=
  _ <-? rrequire ((0 <? supply) && (0 <? connector_balance) && valid_weight connector_weight
                  && (sell_amount <=? supply)) "Invalid input";
  if sell_amount =? 0 then Ok 0 else
  if sell_amount =? supply then Ok connector_balance else
  if connector_weight =? MAX_WEIGHT then py_div (connector_balance * sell_amount) supply else
  let base_d := supply - sell_amount in
  '(result, precision) <-? power supply base_d MAX_WEIGHT connector_weight;
  let temp_1 := connector_balance * result in
  let temp_2 := Z.shiftl connector_balance precision in
  py_div (temp_1 - temp_2) result.

(* fixed_map_formula.py:246-278 calculate_cross_connector_return *)
Definition calculate_cross_connector_return
  (from_balance from_weight to_balance to_weight amount : Z) : res Z :=
  _ <-? rrequire ((0 <? from_balance) && valid_weight from_weight && (0 <? to_balance) && valid_weight to_weight)
                 "Invalid input";
  if from_weight =? to_weight then py_div (to_balance * amount) (from_balance + amount) else
  let base_n := from_balance + amount in
  '(result, precision) <-? power base_n from_balance from_weight to_weight;
  let temp_1 := to_balance * result in
  let temp_2 := Z.shiftl to_balance precision in
  py_div (temp_1 - temp_2) result.
