(* Specification for C69: a path that is open for trading, and what it earns. *)
From Coq Require Import String ZArith.
From stdpp Require Import base list numbers strings gmap relations.
From Verif Require Import Res Codec World WorldSpec TradingSpec.
Local Open Scope Z_scope.

(* everything a conversion along the path needs, except for the amounts: the tokens may be transferred, every converter
   is registered with the network N, is enabled and exchanges the pair *)
Fixpoint open_path (w : world) (N from : addr) (rest : list addr) : Prop :=
  match rest with
  | flexible :: to :: rest' =>
      let C := owner_of w flexible in
      movable w from /\ movable w to /\ network_of w C = N /\ conversions_enabled w C = true /\ tradable w C from to /\ open_path w N to rest'
  | _ => True
  end.
(* at every step the formula's result, less the fee, is at least 1, and at least z at the last step *)
Fixpoint earns (w : world) (from : addr) (rest : list addr) (v z : Z) : Prop :=
  match rest with
  | flexible :: to :: rest' =>
      exists x, worth w (owner_of w flexible) from to v 0 x /\ match rest' with [] => z <= x | _ => 1 <= x end /\ earns w to rest' x z
  | _ => True
  end.

(* s cannot act as (nominated) owner of the network, nor in any of the roles of C62 for a converter on the path *)
Definition bystander (w : world) (N : addr) (p : list addr) (s : addr) : Prop :=
  (forall C, C ∈ converters w p -> outsider w C s) /\ secure w s (owner_of w N) /\ secure w s (pending_owner_of w N).
(* any number of transactions, each sent by a bystander *)
Definition bystanders_history (adv : adversary) (N : addr) (p : list addr) : world -> world -> Prop :=
  rtc (fun w w' => exists fuel t, bystander w N p (tx_sender t) /\ w' = apply_tx adv fuel t w).
