(* The token and registry contracts: their source, interpreted, is the model of World.v. *)
From Coq Require Import String ZArith Lia.
From stdpp Require Import base countable list numbers strings gmap.
From Verif Require Import Res PySyntax PySource Codec World PySemantics SourceBase.
Local Open Scope string_scope.
Local Open Scope list_scope.
Local Open Scope Z_scope.

Ltac each_message m := destruct m; try match goal with d : option data |- _ => destruct d end.
Lemma irc_src call c m w sc : keeps call c ->
  handler_src call ("irc_token.irc_token", "IRCToken") c m (at_ c w sc) = of_res (irc_handler call c m (at_ c w sc)).
Proof. intros K. each_message m. all: method K. Qed.
Lemma icx_src call c m w sc : keeps call c ->
  handler_src call ("icx_token.icx_token", "IcxToken") c m (at_ c w sc) = of_res (icx_handler call c m (at_ c w sc)).
Proof. intros K. each_message m. all: method K. Qed.
Lemma flex_src call c m w sc : keeps call c ->
  handler_src call ("flexible_token.flexible_token", "FlexibleToken") c m (at_ c w sc) = of_res (flex_handler call c m (at_ c w sc)).
Proof. intros K. each_message m. all: method K. Qed.
Lemma reg_src call c m w sc : keeps call c ->
  handler_src call ("score_registry.score_registry", "ScoreRegistry") c m (at_ c w sc) = of_res (reg_handler c m (at_ c w sc)).
Proof. intros K. each_message m. all: method K.
  (* getAddress *)
  all: match goal with |- context [?m !! ?n] => destruct (m !! n) eqn:? end; try reflexivity.
  all: match goal with H : bool_decide _ = true |- _ => apply bool_decide_eq_true_1 in H | H : bool_decide _ = false |- _ => apply bool_decide_eq_false_1 in H end.
  all: congruence.
Qed.
