(* Specification for C84: what a converter pays out. *)
From Coq Require Import String Ascii ZArith.
From stdpp Require Import base countable list numbers strings gmap relations.
From Verif Require Import Res Codec World WorldSpec PriceSpec IssueSpec.
Local Open Scope Z_scope.

(* a Transfer from C, and its amount *)
Definition says_paid (C : addr) (e : event) : option Z :=
  match e with EvTransfer from _ amount _ => if decide (from = C) then Some amount else None | _ => None end.
(* what C paid out in the token T, as T's Transfer events say, and what C's Conversion events into T say *)
Definition paid_out (C T : addr) (log : list (addr * event)) : Z := sum_Z (omap (says_paid C) (own_events T log)).
Definition announced (C T : addr) (log : list (addr * event)) : Z := sum_Z (bought C T log).
(* what C received in T, as T's Transfer events say *)
Definition says_received (C : addr) (e : event) : option Z :=
  match e with EvTransfer _ to amount _ => if decide (to = C) then Some amount else None | _ => None end.
Definition received (C T : addr) (log : list (addr * event)) : Z := sum_Z (omap (says_received C) (own_events T log)).
