(* The converter's conversions: their source, interpreted, is the model of World.v. *)
From Coq Require Import String ZArith Lia.
From stdpp Require Import base countable list numbers strings gmap.
From Verif Require Import Res PySyntax PySource Codec World PySemantics SourceBase SourceSteps SourceConverter.
Local Open Scope string_scope.
Local Open Scope list_scope.
Local Open Scope Z_scope.

Notation cexec c := (PySemantics.exec c (order_of Conv) (attrs_of Conv) names formula_object).
Notation ceval c := (PySemantics.eval c (order_of Conv) (attrs_of Conv) names formula_object).
Section converter.
Variables (call : bool -> addr -> addr -> Z -> msg -> M rv) (c : ctx).
Hypothesis K : keeps call c.

Lemma buy_meth n m tail tr t a j z w sc : json_int j = Some z ->
  agrees c VInt (denote call c (ccall c (60 + n) m tail (closure Conv "_buy") [VAddr tr; VAddr t; VInt a; VJson j] []) (at_ c w sc))
    (buy call c tr t a z (at_ c w sc)).
Proof.
  intros J. change (60 + n)%nat with (S (S (S (S (56 + n))))). enter Conv "_buy". first_call Conv "get_purchase_return".
  unfold buy. unfold bind at 1.
  match goal with |- agrees _ _ (andthen ?D _) _ =>
    assert (H : agrees c pair_dict D (get_purchase_return call c t a true (at_ c w sc))) by exact (purchase_meth call c K (16 + n) _ _ t a true w sc) end.
  destruct H as [[-> [? ->]]|([r fee] & w1 & sc1 & -> & ->)]; [apply agrees_fail|].
  unfold pair_dict. cbn [andthen fst snd]. whole K.
Qed.
Lemma sell_meth n m tail tr t a j z w sc : json_int j = Some z ->
  agrees c VInt (denote call c (ccall c (60 + n) m tail (closure Conv "_sell") [VAddr tr; VAddr t; VInt a; VJson j] []) (at_ c w sc))
    (sell call c tr t a z (at_ c w sc)).
Proof.
  intros J. change (60 + n)%nat with (S (S (S (S (56 + n))))). enter Conv "_sell". first_call Conv "get_sale_return".
  unfold sell. unfold bind at 1.
  match goal with |- agrees _ _ (andthen ?D _) _ =>
    assert (H : agrees c pair_dict D (get_sale_return call c t a (at_ c w sc))) by exact (sale_meth call c K (16 + n) _ _ t a w sc) end.
  destruct H as [[-> [? ->]]|([r fee] & w1 & sc1 & -> & ->)]; [apply agrees_fail|].
  unfold pair_dict. cbn [andthen fst snd]. whole K.
Qed.
Lemma convert_cross_meth n m tail tr t u a j z w sc : json_int j = Some z ->
  agrees c VInt (denote call c (ccall c (60 + n) m tail (closure Conv "_convert_cross_connector") [VAddr tr; VAddr t; VAddr u; VInt a; VJson j] []) (at_ c w sc))
    (convert_cross call c tr t u a z (at_ c w sc)).
Proof.
  intros J. change (60 + n)%nat with (S (S (S (S (56 + n))))). enter Conv "_convert_cross_connector". first_call Conv "get_cross_connector_return".
  unfold convert_cross. unfold bind at 1.
  match goal with |- agrees _ _ (andthen ?D _) _ =>
    assert (H : agrees c pair_dict D (get_cross_connector_return call c t u a true (at_ c w sc))) by exact (cross_meth call c K (16 + n) _ _ t u a true w sc) end.
  destruct H as [[-> [? ->]]|([r fee] & w1 & sc1 & -> & ->)]; [apply agrees_fail|].
  unfold pair_dict. cbn [andthen fst snd]. whole K.
Qed.
End converter.
