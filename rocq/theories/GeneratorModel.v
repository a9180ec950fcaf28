(* Model of contracts/formula/auto_generate: the scripts that produced the constants of the formula.
   Assertion failures are [Err].  Not modelled: printing.  The Decimal computations of e^x and ln
   (print_function_optimal_log.py:42-46, print_function_optimal_exp.py:43-50, print_ln2_scaling_factors.py:47-48)
   are in GeneratorReal.v; here their results enter as parameters (the high terms). *)
From Coq Require Import ZArith List String.
From Verif Require Import Res.
Import ListNotations.
Local Open Scope Z_scope.
Local Open Scope res_scope.

(* common/constants.py:2-18 *)
Definition G_MIN_PRECISION : Z := 32.
Definition G_MAX_PRECISION : Z := 127.
Definition G_NUM_OF_COEFFICIENTS : nat := 34.

(* math.factorial (functions.py:20) *)
Fixpoint factorial (n : nat) : Z := match n with O => 1 | S k => Z.of_nat n * factorial k end.

(* common/functions.py:23-25 get_coefficients *)
Definition get_coefficients (num : nat) : list Z :=
  let max_factorial := factorial (num - 1) in
  map (fun i => max_factorial / factorial i) (seq 1 (num - 1)).

(* common/functions.py:93-105 safe_sub, safe_add, safe_mul *)
Definition safe_sub (x y : Z) : res Z := if 0 <=? x - y then Ok (x - y) else Err "AssertionError".
Definition safe_add (x y : Z) : res Z := if x + y <? 2 ^ 256 then Ok (x + y) else Err "AssertionError".
Definition safe_mul (x y : Z) : res Z := if x * y <? 2 ^ 256 then Ok (x * y) else Err "AssertionError".

(* common/functions.py:59-61: the loop over coefficients[1:] *)
Fixpoint g_general_exp_loop (l : list Z) (x precision xi acc : Z) : res Z :=
  match l with
  | [] => Ok acc
  | c :: l' =>
      m <-? safe_mul xi x;
      let xi' := Z.shiftr m precision in
      t <-? safe_mul xi' c;
      acc' <-? safe_add acc t;
      g_general_exp_loop l' x precision xi' acc'
  end.

(* common/functions.py:56-62 general_exp *)
Definition g_general_exp (x : Z) (coefficients : list Z) (precision : Z) : res Z :=
  match coefficients with
  | [] => Err "IndexError"
  | c0 :: cs =>
      acc <-? g_general_exp_loop cs x precision x 0;
      s <-? safe_add (acc / c0) x;
      safe_add s (Z.shiftl 1 precision)
  end.

(* common/functions.py:40-46: while lo+1 < hi; [func] tells whether the call succeeds *)
Fixpoint binary_search_loop (fuel : nat) (func : Z -> bool) (lo hi : Z) : res (Z * Z) :=
  if lo + 1 <? hi then
    match fuel with
    | O => Err "out of fuel"
    | S f => let mid := (lo + hi) / 2 in
             if func mid then binary_search_loop f func mid hi else binary_search_loop f func lo mid
    end
  else Ok (lo, hi).

(* common/functions.py:36-53 binary_search *)
Definition binary_search (func : Z -> bool) : res Z :=
  '(lo, hi) <-? binary_search_loop 256 func 0 (2 ^ 256 - 1);
  if func hi then Ok hi else if func lo then Ok lo else Err "exception of func".

Definition succeeds {A} (r : res A) : bool := match r with Ok _ => true | Err _ => false end.

(* common/functions.py:28-29 get_max_exp_array, one entry *)
Definition max_exp_entry (coefficients : list Z) (precision : Z) : res Z :=
  binary_search (fun x => succeeds (g_general_exp x coefficients precision)).

(* print_function_constructor.py:29-30: ((max_exp_array[p]+1) << (MAX_PRECISION-p)) - 1 *)
Definition max_exp_entry_shl (coefficients : list Z) (precision : Z) : res Z :=
  m <-? max_exp_entry coefficients precision;
  Ok (Z.shiftl (m + 1) (G_MAX_PRECISION - precision) - 1).

(* common/functions.py:65-77 optimal_log; hi_terms are (exp, val), lo_terms (num, den) *)
Fixpoint g_log_hi (l : list (Z * Z)) (fixed1 x acc : Z) : res (Z * Z) :=
  match l with
  | [] => Ok (x, acc)
  | (e, v) :: l' =>
      if e <=? x then
        acc' <-? safe_add acc v;
        m <-? safe_mul x fixed1;
        q <-? py_div m e;
        g_log_hi l' fixed1 q acc'
      else g_log_hi l' fixed1 x acc
  end.
Fixpoint g_log_lo (l : list (Z * Z)) (fixed1 y w z acc : Z) : res Z :=
  match l with
  | [] => Err "IndexError"
  | [(num, den)] =>
      s <-? safe_sub num y; m <-? safe_mul z s; q <-? py_div m den; safe_add acc q
  | (num, den) :: l' =>
      s <-? safe_sub num y; m <-? safe_mul z s; q <-? py_div m den; acc' <-? safe_add acc q;
      m2 <-? safe_mul z w; z' <-? py_div m2 fixed1;
      g_log_lo l' fixed1 y w z' acc'
  end.
Definition g_optimal_log (x : Z) (hi_terms : list (Z * Z)) (lo_terms : list (Z * Z)) (fixed1 : Z) : res Z :=
  '(x', acc) <-? g_log_hi (tl hi_terms) fixed1 x 0;
  y <-? safe_sub x' fixed1;
  m <-? safe_mul y y; w <-? py_div m fixed1;
  g_log_lo lo_terms fixed1 y w y acc.

(* print_function_optimal_log.py:52-61: add low terms while the result grows *)
Fixpoint g_log_terms (fuel : nat) (hi_terms lo_terms : list (Z * Z)) (fixed1 max_val r : Z) : res (list (Z * Z)) :=
  match fuel with
  | O => Err "out of fuel"
  | S f =>
      let n := Z.of_nat (List.length lo_terms) in
      let val := fixed1 * (2 * n + 2) in
      let next := lo_terms ++ [(val / (2 * n + 1), val)] in
      r' <-? g_optimal_log max_val hi_terms next fixed1;
      if r <? r' then g_log_terms f hi_terms next fixed1 max_val r' else Ok lo_terms
  end.
(* print_function_optimal_log.py:49-61 *)
Definition g_log_lo_terms (hi_terms : list (Z * Z)) (fixed1 : Z) : res (list (Z * Z)) :=
  match hi_terms with
  | [] => Err "IndexError"
  | (e0, _) :: _ =>
      let max_val := e0 - 1 in
      let lo0 := [(fixed1 * 2, fixed1 * 2)] in
      r <-? g_optimal_log max_val hi_terms lo0 fixed1;
      g_log_terms 100 hi_terms lo0 fixed1 max_val r
  end.

(* common/functions.py:80-90 optimal_exp; hi_terms are (bit, num, den) without the last (unused) one *)
Fixpoint g_exp_lo (l : list Z) (fixed1 y z acc : Z) : res (Z) :=
  match l with
  | [] => Ok acc
  | v :: l' => m <-? safe_mul z y; z' <-? py_div m fixed1; t <-? safe_mul z' v; acc' <-? safe_add acc t;
               g_exp_lo l' fixed1 y z' acc'
  end.
Fixpoint g_exp_hi (l : list (Z * Z * Z)) (x acc : Z) : res Z :=
  match l with
  | [] => Ok acc
  | (b, n, d) :: l' =>
      if negb (Z.land x b =? 0) then m <-? safe_mul acc n; q <-? py_div m d; g_exp_hi l' x q
      else g_exp_hi l' x acc
  end.
Definition g_optimal_exp (x bit0 : Z) (hi_terms : list (Z * Z * Z)) (lo_terms : list Z) (fixed1 : Z) : res Z :=
  match lo_terms with
  | [] => Err "IndexError"
  | v0 :: vs =>
      let y := x mod bit0 in
      acc <-? g_exp_lo vs fixed1 y y 0;
      q <-? py_div acc v0;
      s <-? safe_add q y; s' <-? safe_add s fixed1;
      g_exp_hi hi_terms x s'
  end.
(* print_function_optimal_exp.py:56-65 *)
Fixpoint g_exp_terms (fuel : nat) (hi_terms : list (Z * Z * Z)) (lo_terms : list Z) (fixed1 max_val bit0 r : Z) : res (list Z) :=
  match fuel with
  | O => Err "out of fuel"
  | S f =>
      let n := S (List.length lo_terms) in
      let next := map (fun i => factorial n / factorial (i + 1)) (seq 0 n) in
      r' <-? g_optimal_exp max_val bit0 hi_terms next fixed1;
      if r <? r' then g_exp_terms f hi_terms next fixed1 max_val bit0 r' else Ok lo_terms
  end.
(* print_function_optimal_exp.py:53-65; [last_bit] is hiTerms[-1].bit *)
Definition g_exp_lo_terms (hi_terms : list (Z * Z * Z)) (last_bit fixed1 : Z) : res (list Z) :=
  match hi_terms with
  | [] => Err "IndexError"
  | (bit0, _, _) :: _ =>
      let max_val := last_bit - 1 in
      r <-? g_optimal_exp max_val bit0 hi_terms [1] fixed1;
      g_exp_terms 100 hi_terms [1] fixed1 max_val bit0 r
  end.
