(* Specification for C61: what traders can do to the supply and the reserves of a converter, told with the formula's
   three quotes only.  I is the type of connectors, conns lists them, weight gives their weights. *)
From Coq Require Import ZArith List.
From Verif Require Import Res FormulaModel.
Local Open Scope Z_scope.

(* supply of the flexible token, reserve of each connector *)
Record pool (I : Type) := Pool { supply : Z; reserve_of : I -> Z }.
Arguments Pool {I}. Arguments supply {I}. Arguments reserve_of {I}.

(* reserves change at i by x, elsewhere not *)
Definition moved {I} (i : I) (x : Z) (f g : I -> Z) : Prop := g i = f i + x /\ forall k, k <> i -> g k = f k.

Section pool.
Context {I : Type} (conns : list I) (weight : I -> Z).

(* One trade.  The trader may get less than the formula's result (a fee), never more. *)
Inductive trade : pool I -> pool I -> Prop :=
| purchase i d r got p q : In i conns -> 0 <= d ->
    calculate_purchase_return (supply p) (reserve_of p i) (weight i) d = Ok r -> 0 <= got <= r ->
    supply q = supply p + got -> moved i d (reserve_of p) (reserve_of q) -> trade p q
| sale i s r got p q : In i conns -> 0 <= s ->
    calculate_sale_return (supply p) (reserve_of p i) (weight i) s = Ok r -> 0 <= got <= r ->
    supply q = supply p - s -> moved i (- got) (reserve_of p) (reserve_of q) -> trade p q
| cross i j a r got p q f : In i conns -> In j conns -> i <> j -> 0 <= a ->
    calculate_cross_connector_return (reserve_of p i) (weight i) (reserve_of p j) (weight j) a = Ok r -> 0 <= got <= r ->
    supply q = supply p -> moved i a (reserve_of p) f -> moved j (- got) f (reserve_of q) -> trade p q.

(* Giving tokens to the converter, destroying flexible tokens. *)
Inductive gift : pool I -> pool I -> Prop :=
| donation i x p q : In i conns -> 0 <= x -> supply q = supply p -> moved i x (reserve_of p) (reserve_of q) -> gift p q
| destruction x p q : 0 <= x -> supply q = supply p - x -> (forall k, reserve_of q k = reserve_of p k) -> gift p q.

(* n trades, with gifts in between *)
Inductive trades : nat -> pool I -> pool I -> Prop :=
| no_trade p q : supply q = supply p -> (forall k, reserve_of q k = reserve_of p k) -> trades 0 p q
| one_more_trade n p q q' : trades n p q -> trade q q' -> trades (S n) p q'
| one_more_gift n p q q' : trades n p q -> gift q q' -> trades n p q'.

Definition funded (p : pool I) : Prop := 0 < supply p /\ forall i, In i conns -> 0 < reserve_of p i.
End pool.
