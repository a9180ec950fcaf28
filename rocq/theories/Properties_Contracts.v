(* C77: the contracts as their files say.  [run_tx_src adv fuel t w] runs the transaction t in the world w with the contracts
   interpreted from the syntax trees of their files (PySource.v, written by Python's parser; interpreter PySemantics.v; message calls,
   decorators and deployment SourceBase.v, "specification: the service").  It ends as Done (answer, world), Failed, or NoMeaning
   (a construct or a situation that the interpreter has no meaning for).  All other contract properties speak of run_tx and reachable of World.v. *)
From Coq Require Import String ZArith.
From stdpp Require Import base countable list numbers strings gmap.
From Verif Require Import Res PySyntax PySource Codec World Scenario PySemantics SourceBase SourceExec.
Local Open Scope string_scope.
Local Open Scope list_scope.
Local Open Scope Z_scope.

(* any transaction, in any world whatever, with any unknown contracts around: the same answer and world, or both fail *)
Theorem C77_transactions_as_written : forall adv fuel t w,
  run_tx_src adv fuel t w = match run_tx adv fuel t w with Ok (answer, w') => Done (answer, w') | Err _ => Failed end.
Proof. intros. rewrite tx_same. by destruct (run_tx adv fuel t w) as [[? ?]|]. Qed.
Print Assumptions C77_transactions_as_written.
(* any message call between contracts, at any depth, in a read-only context or not *)
Theorem C77_calls_as_written : forall adv fuel readonly sender receiver coins m w,
  exec_src adv fuel readonly sender receiver coins m w =
  match World.exec adv fuel readonly sender receiver coins m w with Ok (answer, w') => Done (answer, w') | Err _ => Failed end.
Proof. intros. rewrite exec_same. by destruct (World.exec adv fuel readonly sender receiver coins m w) as [[? ?]|]. Qed.
Print Assumptions C77_calls_as_written.
(* no call ever reaches a construct without a meaning *)
Theorem C77_always_a_meaning : forall adv fuel t w, run_tx_src adv fuel t w <> NoMeaning.
Proof. intros. rewrite tx_same. by destruct (run_tx adv fuel t w) as [[? ?]|]. Qed.
Print Assumptions C77_always_a_meaning.
(* histories: the same worlds are reached *)
Theorem C77_histories_as_written : forall adv w, reachable_src adv w <-> reachable adv w.
Proof. exact reachable_same. Qed.
Print Assumptions C77_histories_as_written.

(* C78: an update of a contract to its own code, by anybody the service allows it to, runs on_update, which succeeds and changes nothing:
   balances, supply, owner, settings, registered addresses and coins are as before, and no event is logged and no other contract called
   (it succeeds with no fuel for calls at all) *)
Theorem C78_updates_change_nothing : forall adv fuel n a w sc,
  w_scores w !! SCORE a = Some sc -> s_kind sc <> KAdv -> run_update_src adv fuel n a w = Done (RNone, w).
Proof. exact update_same. Qed.
Print Assumptions C78_updates_change_nothing.

(* the interpreter at work: a token is deployed and moved; the answer to balanceOf, and a transfer of more than the balance *)
Fixpoint play_src (adv : adversary) (fuel : nat) (h : list tx) (w : world) : result world :=
  match h with
  | [] => Done w
  | t :: h => andthen (run_tx_src adv fuel t w) (fun p => play_src adv fuel h p.2)
  end.
Definition token_moves : list tx := [TDeploy 1 8 (IIrc "Gold" "GLD" 1000000 6); TCall 1 irct 0 (MTransfer alice 5 None)].
Example C77_runs :
  andthen (play_src quiet 20 token_moves world0) (fun w => andthen (run_tx_src quiet 20 (TCall 3 irct 0 (MBalanceOf alice)) w) (fun p => Done p.1)) = Done (RInt 5) /\
  andthen (play_src quiet 20 token_moves world0) (fun w => andthen (run_tx_src quiet 20 (TCall 2 irct 0 (MTransfer bob 6 None)) w) (fun p => Done p.1)) = Failed.
Proof. split; vm_compute; reflexivity. Qed.
(* a conversion of coins through the network, two contracts deep in each hop, in the world of Scenario.v *)
Example C77_converts :
  exists w', run_tx_src quiet 20 (TCall 2 network (10 ^ 18) (MConvert (path_text [icxt; flexA; irct]) 1)) ready = Done (RInt 1656659, w').
Proof.
  rewrite C77_transactions_as_written.
  assert (H : match run_tx quiet 20 (TCall 2 network (10 ^ 18) (MConvert (path_text [icxt; flexA; irct]) 1)) ready with Ok (RInt z, _) => z =? 1656659 | _ => false end = true)
    by (vm_compute; reflexivity).
  revert H. generalize (run_tx quiet 20 (TCall 2 network (10 ^ 18) (MConvert (path_text [icxt; flexA; irct]) 1)) ready).
  intros [[r w']|e] H; [|discriminate H]. destruct r; try discriminate H. apply Z.eqb_eq in H. subst z. by exists w'.
Qed.
(* the converter of the same world is updated *)
Example C78_updates : run_update_src quiet 0 1 5 ready = Done (RNone, ready).
Proof.
  destruct (w_scores ready !! SCORE 5) as [sc|] eqn:E; [|exfalso; revert E; vm_compute; discriminate].
  apply C78_updates_change_nothing with sc; [exact E|]. intros K.
  assert (B : match w_scores ready !! SCORE 5 with Some sc => match s_kind sc with KAdv => true | _ => false end | None => false end = true) by (by rewrite E, K).
  revert B. vm_compute. discriminate.
Qed.
