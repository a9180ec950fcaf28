(* Specification for C83: how the tokens of a flexible token are issued while a converter owns it. *)
From Coq Require Import String Ascii ZArith.
From stdpp Require Import base countable list numbers strings gmap relations.
From Verif Require Import Res Codec World WorldSpec PriceSpec.
Local Open Scope Z_scope.

Definition says_issued (e : event) : option Z := match e with EvIssuance v => Some v | _ => None end.
Definition says_destroyed (e : event) : option Z := match e with EvDestruction v => Some v | _ => None end.
(* a Conversion into the token T, and the amount returned *)
Definition says_bought (T : addr) (e : event) : option Z :=
  match e with EvConversion _ to _ _ amount _ => if decide (to = T) then Some amount else None | _ => None end.
(* in a log (newest first): the amounts issued and destroyed as the token's events say, and those bought as the converter's events say *)
Definition issued (T : addr) (log : list (addr * event)) : list Z := omap says_issued (own_events T log).
Definition destroyed (T : addr) (log : list (addr * event)) : list Z := omap says_destroyed (own_events T log).
Definition bought (C T : addr) (log : list (addr * event)) : list Z := omap (says_bought T) (own_events C log).

(* C is an active converter in the hands of accounts, T its flexible token, not nominated to a contract *)
Definition in_control (w : world) (C T : addr) : Prop :=
  kind_at w C = Some KConv /\ kind_at w T = Some KFlex /\ token_of w C = T /\ owner_of w T = C /\
  (pending_owner_of w T = zero_score \/ exists b, pending_owner_of w T = EOA b) /\ in_account_hands w C.
(* histories during which this is so before every transaction *)
Definition under_control (adv : adversary) (C T : addr) : world -> world -> Prop :=
  rtc (fun w w' => in_control w C T /\ exists fuel t, w' = apply_tx adv fuel t w).
(* the transaction is a direct call by which the ownership of C or of T is handed over *)
Definition hands_over (C T : addr) (t : tx) : Prop :=
  match t with
  | TCall _ X _ m => match m with
      | MTransferOwnership _ | MTransferTokenOwnership _ => X = C
      | MAcceptOwnership => X = C \/ X = T
      | _ => False end
  | _ => False end.
