(* The converter: its source, interpreted, is the model of World.v. *)
From Coq Require Import String ZArith Lia.
From stdpp Require Import base countable list numbers strings gmap.
From Verif Require Import Res PySyntax PySource Codec World PySemantics SourceBase SourceSteps.
Local Open Scope string_scope.
Local Open Scope list_scope.
Local Open Scope Z_scope.
Notation Conv := ("converter.converter", "Converter").

Notation ccall c := (PySemantics.call c (order_of Conv) (attrs_of Conv) names formula_object).
Definition pair_dict (p : Z * Z) : value := VDict [("amount", VInt p.1); ("fee", VInt p.2)].

Section converter.
Variables (call : bool -> addr -> addr -> Z -> msg -> M rv) (c : ctx).
Hypothesis K : keeps call c.

Lemma purchase_meth n m tail t a b w sc :
  agrees c pair_dict (denote call c (ccall c (40 + n) m tail (closure Conv "get_purchase_return") [VAddr t; VInt a; VBool b] []) (at_ c w sc))
    (get_purchase_return call c t a b (at_ c w sc)).
Proof. unfold get_purchase_return. whole K. Qed.
Lemma purchase_meth' n m tail t a w sc :
  agrees c pair_dict (denote call c (ccall c (40 + n) m tail (closure Conv "get_purchase_return") [VAddr t; VInt a] []) (at_ c w sc))
    (get_purchase_return call c t a false (at_ c w sc)).
Proof. unfold get_purchase_return. whole K. Qed.
Lemma sale_meth n m tail t a w sc :
  agrees c pair_dict (denote call c (ccall c (40 + n) m tail (closure Conv "get_sale_return") [VAddr t; VInt a] []) (at_ c w sc))
    (get_sale_return call c t a (at_ c w sc)).
Proof. unfold get_sale_return. whole K. Qed.
Lemma cross_meth n m tail t u a b w sc :
  agrees c pair_dict (denote call c (ccall c (40 + n) m tail (closure Conv "get_cross_connector_return") [VAddr t; VAddr u; VInt a; VBool b] []) (at_ c w sc))
    (get_cross_connector_return call c t u a b (at_ c w sc)).
Proof. unfold get_cross_connector_return. whole K. Qed.
Lemma cross_meth' n m tail t u a w sc :
  agrees c pair_dict (denote call c (ccall c (40 + n) m tail (closure Conv "get_cross_connector_return") [VAddr t; VAddr u; VInt a] []) (at_ c w sc))
    (get_cross_connector_return call c t u a false (at_ c w sc)).
Proof. unfold get_cross_connector_return. whole K. Qed.
End converter.
