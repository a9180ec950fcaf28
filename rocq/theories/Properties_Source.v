(* C76: the source text itself.  [formula_result x vs] runs the method x of the class FixedMapFormula from the syntax tree of
   contracts/formula/fixed_map_formula.py (PySource.v, written by Python's parser) with the interpreter of PySemantics.v:
   Done z if it returns the integer z, Failed if it ends in an exception, NoMeaning otherwise (which includes running out of fuel). *)
From Coq Require Import String ZArith List.
From Verif Require Import Res FormulaModel PySyntax PySource PySemantics SourceFormula.
Import ListNotations.
Local Open Scope string_scope.
Local Open Scope list_scope.
Local Open Scope Z_scope.

Theorem C76_purchase_as_written : forall supply balance weight amount,
  formula_result "calculate_purchase_return" [VInt supply; VInt balance; VInt weight; VInt amount] =
  match calculate_purchase_return supply balance weight amount with Ok z => Done z | Err _ => Failed end.
Proof. intros. exact (purchase_src _ _ _ _). Qed.
Print Assumptions C76_purchase_as_written.
Theorem C76_sale_as_written : forall supply balance weight amount,
  formula_result "calculate_sale_return" [VInt supply; VInt balance; VInt weight; VInt amount] =
  match calculate_sale_return supply balance weight amount with Ok z => Done z | Err _ => Failed end.
Proof. intros. exact (sale_src _ _ _ _). Qed.
Print Assumptions C76_sale_as_written.
Theorem C76_cross_as_written : forall from_balance from_weight to_balance to_weight amount,
  formula_result "calculate_cross_connector_return" [VInt from_balance; VInt from_weight; VInt to_balance; VInt to_weight; VInt amount] =
  match calculate_cross_connector_return from_balance from_weight to_balance to_weight amount with Ok z => Done z | Err _ => Failed end.
Proof. intros. exact (cross_src _ _ _ _ _). Qed.
Print Assumptions C76_cross_as_written.

(* the interpreter at work on a test of the repository (tests/score/formula), and on arguments that fail *)
Example C76_runs : formula_result "calculate_purchase_return" [VInt 300000; VInt 60000; VInt 500000; VInt 500] = Done 1247 /\
  formula_result "calculate_sale_return" [VInt 300000; VInt 60000; VInt 500000; VInt 300001] = Failed.
Proof. split; lazy; reflexivity. Qed.
