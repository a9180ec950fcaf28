(* Specification for C62: a converter among genuine contracts, and who is an outsider to it. *)
From Coq Require Import String ZArith.
From stdpp Require Import base list numbers strings gmap relations.
From Verif Require Import Res PoolSpec Codec World WorldSpec.
Local Open Scope Z_scope.

(* the supply of the flexible token and the tokens the converter holds of each connector *)
Definition pool_of (w : world) (C : addr) : pool addr :=
  Pool (supply_of w (token_of w C)) (fun t => if decide (t ∈ connectors_of w C) then balance_of w t C else 0).

(* C is active, all its connectors are genuine tokens without virtual balance, and its registry, also genuine, cannot be
   exchanged by strangers: registry updates are off or the registry lists itself.  Nothing is said about the network. *)
Definition pool_set_up (w : world) (C : addr) : Prop :=
  genuine_converter w C /\ active w C /\
  (forall t, t ∈ connectors_of w C -> is_token w t /\ cn_venabled (connector_of w C t) = false) /\
  (registry_updates_allowed w C = false \/ registered w (registry_of w C) "ScoreRegistry" = registry_of w C).

(* s cannot act as (nominated) owner or manager of the converter, nor as (nominated) owner of its flexible token or of a
   connector that is itself a flexible token; nor of its registry, unless registry updates are off *)
Definition stranger (w : world) (C s : addr) : Prop :=
  (forall X, X = C \/ X = token_of w C \/ (X = registry_of w C /\ registry_updates_allowed w C = true) \/
             X ∈ connectors_of w C /\ kind_at w X = Some KFlex ->
     secure w s (owner_of w X) /\ secure w s (pending_owner_of w X)) /\
  (forall a, manager_of w C = Some a \/ pending_manager_of w C = Some a -> secure w s a).

(* the same with a genuine network, and a registry whose owner is no outsider *)
(* C is active, trades with a genuine network, all its connectors are genuine tokens without virtual balance, and
   its registry, also genuine, cannot be exchanged by strangers: registry updates are off or the registry lists itself *)
Definition set_up (w : world) (C : addr) : Prop :=
  genuine_converter w C /\ active w C /\ kind_at w (network_of w C) = Some KNet /\
  (forall t, t ∈ connectors_of w C -> is_token w t /\ cn_venabled (connector_of w C t) = false) /\
  (registry_updates_allowed w C = false \/ registered w (registry_of w C) "ScoreRegistry" = registry_of w C).

(* s cannot act as (nominated) owner or manager of the converter, nor as (nominated) owner of its flexible token, of
   its registry or of a connector that is itself a flexible token *)
Definition outsider (w : world) (C s : addr) : Prop :=
  (forall X, X = C \/ X = token_of w C \/ X = registry_of w C \/ X ∈ connectors_of w C /\ kind_at w X = Some KFlex ->
     secure w s (owner_of w X) /\ secure w s (pending_owner_of w X)) /\
  (forall a, manager_of w C = Some a \/ pending_manager_of w C = Some a -> secure w s a).

(* the number of Conversion events of C so far *)
Definition is_conversion (e : event) : bool := match e with EvConversion _ _ _ _ _ _ => true | _ => false end.
Definition conversions (w : world) (C : addr) : nat := length (List.filter is_conversion (own_events C (w_log w))).

(* any number of transactions, each sent by an outsider to C (failed transactions change nothing) *)
Definition outside_history (adv : adversary) (C : addr) : world -> world -> Prop :=
  rtc (fun w w' => exists fuel t, outsider w C (tx_sender t) /\ w' = apply_tx adv fuel t w).
Definition stranger_history (adv : adversary) (C : addr) : world -> world -> Prop :=
  rtc (fun w w' => exists fuel t, stranger w C (tx_sender t) /\ w' = apply_tx adv fuel t w).
