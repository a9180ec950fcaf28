(* Specification for C82: what the price events of a converter say. *)
From Coq Require Import String Ascii ZArith.
From stdpp Require Import base countable list numbers strings gmap.
From Verif Require Import Res Codec World WorldSpec.
Local Open Scope Z_scope.

(* the balance of connector token T that a PriceDataUpdate event reports *)
Definition says_price (T : addr) (e : event) : option Z :=
  match e with EvPriceDataUpdate t _ b _ => if decide (t = T) then Some b else None | _ => None end.
(* the converter's owner is an account, and so is whoever is nominated (if anybody is) *)
Definition in_account_hands (w : world) (C : addr) : Prop :=
  (exists a, owner_of w C = EOA a) /\ (pending_owner_of w C = zero_score \/ exists b, pending_owner_of w C = EOA b).
(* the balance a connector with a virtual balance trades at *)
Definition virtual_balance (w : world) (C T : addr) : Z := cn_virtual (connector_of w C T).
Definition has_virtual (w : world) (C T : addr) : Prop := is_connector w C T /\ cn_venabled (connector_of w C T) = true.
(* the transaction is a direct call of updateConnector for T on C *)
Definition resets (C T : addr) (t : tx) : Prop :=
  match t with TCall _ X _ (MUpdateConnector t' _ _ _) => X = C /\ t' = T | _ => False end.
(* histories without such a call, during which the roles of C are held by accounts *)
Definition unreset (adv : adversary) (C T : addr) : world -> world -> Prop :=
  rtc (fun w w' => in_account_hands w C /\ exists fuel t, ~ resets C T t /\ w' = apply_tx adv fuel t w).
(* T is an IRC2 token or ICX token contract, and a connector of C that trades at C's own balance of T *)
Definition has_real (w : world) (C T : addr) : Prop :=
  is_connector w C T /\ cn_venabled (connector_of w C T) = false /\ (kind_at w T = Some KIrc \/ kind_at w T = Some KIcx).
(* histories without a transaction of C's owner, during which the roles of C are held by accounts *)
Definition unattended (adv : adversary) (C : addr) : world -> world -> Prop :=
  rtc (fun w w' => in_account_hands w C /\ exists fuel t, tx_sender t <> owner_of w C /\ w' = apply_tx adv fuel t w).
