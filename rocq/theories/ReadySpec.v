(* Specification for C64: when a conversion along a path can be made. *)
From Coq Require Import String ZArith.
From stdpp Require Import base list numbers strings gmap relations.
From Verif Require Import Res Codec World WorldSpec.
Local Open Scope Z_scope.

(* every step of the path can be made, in the state w, with the amount received from the step before; v is the amount of
   the first token, z the minimum return of the last step (every other step must return at least 1) *)
Fixpoint passable (w : world) (N from : addr) (rest : list addr) (v z : Z) : Prop :=
  match rest with
  | flexible :: to :: rest' =>
      let C := owner_of w flexible in
      movable w from /\ network_of w C = N /\ conversions_enabled w C = true /\ tradable w C from to /\
      exists x, worth w C from to v (lowered w C from v) x /\ deliverable w C from to v x /\
        match rest' with [] => z <= x | _ => 1 <= x end /\ passable w N to rest' x z
  | _ => True
  end.
(* the network can pay L to a user: as coins if L is registered as ICX token *)
Definition payable (w : world) (N L : addr) : Prop :=
  if icx_registered w N L then kind_at w L = Some KIcx else movable w L.
