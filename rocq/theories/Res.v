(* Results of Python code: a value, or an exception with its message.
   iconservice's revert(msg), ZeroDivisionError, TypeError, KeyError ... all abort the
   frame and are represented by [Err]; the messages of [require] are kept. *)
From Coq Require Import ZArith String.
Local Open Scope Z_scope.

Inductive res (A : Type) : Type :=
| Ok (a : A)
| Err (msg : string).
Arguments Ok {A} a.
Arguments Err {A} msg.

Definition rbind {A B} (m : res A) (f : A -> res B) : res B :=
  match m with Ok a => f a | Err e => Err e end.

Declare Scope res_scope.
Delimit Scope res_scope with res.
Notation "x <-? m ; k" := (rbind m (fun x => k))
  (at level 63, m at next level, right associativity) : res_scope.
Notation "' p <-? m ; k" := (rbind m (fun x => match x with p => k end))
  (at level 63, p pattern, m at next level, right associativity) : res_scope.

(* contracts/utility/utils.py:33-41 require(condition, message): revert(message) unless condition *)
Definition rrequire (b : bool) (msg : string) : res unit := if b then Ok tt else Err msg.

(* Python's a // b: floor division, ZeroDivisionError for b = 0 *)
Definition py_div (a b : Z) : res Z := if b =? 0 then Err "ZeroDivisionError" else Ok (a / b).

Lemma Ok_inj {A} (a b : A) : Ok a = Ok b -> a = b.
Proof. intros H. inversion H. reflexivity. Qed.
