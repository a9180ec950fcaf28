(* The converter's entry points: their source, interpreted, is the model of World.v. *)
From Coq Require Import String ZArith Lia.
From stdpp Require Import base countable list numbers strings gmap.
From Verif Require Import Res PySyntax PySource Codec World PySemantics SourceBase SourceSteps SourceTokens SourceConverter SourceTrade.
Local Open Scope string_scope.
Local Open Scope list_scope.
Local Open Scope Z_scope.

Section converter.
Variables (call : bool -> addr -> addr -> Z -> msg -> M rv) (c : ctx).
Hypothesis K : keeps call c.

Lemma convert_meth n m tail tr t u a j w sc :
  agrees c VInt (denote call c (ccall c (80 + n) m tail (closure Conv "_convert") [VAddr tr; VAddr t; VAddr u; VInt a; VJson j] []) (at_ c w sc))
    (match json_int j with Some z => conv_convert call c tr t u a z (at_ c w sc) | None => Err "" end).
Proof.
  cbn [Nat.add]. enter Conv "_convert". next. unfold conv_convert, bind. rewrite this_at. unfold require, ret, fail.
  destruct (s_enabled sc); [|destruct (json_int j); apply agrees_fail]. go.
  next. destruct (json_int j) as [z|] eqn:J; [|apply agrees_fail].
  unfold require_positive_value, require, ret, fail. destruct (0 <? z); [|apply agrees_fail]. go.
  next. unfold same_addr. rewrite bd_not. destruct (bool_decide (t = u)); [apply agrees_fail|]. go.
  next. go.
  next_if.
  unfold same_addr. destruct (bool_decide (u = s_token sc)).
  { ret_call Conv "_buy". apply agrees_then; [exact (buy_meth call c K (10 + n) _ _ tr t a j z w sc J)|reflexivity]. }
  next_if. unfold same_addr. destruct (bool_decide (t = s_token sc)).
  { ret_call Conv "_sell". apply agrees_then; [exact (sell_meth call c K (8 + n) _ _ tr u a j z w sc J)|reflexivity]. }
  rewrite denote_done. cbv beta iota delta [rest_of fst snd]. rewrite denote_done. cbv beta iota delta [rest_of fst snd].
  ret_call Conv "_convert_cross_connector". apply agrees_then; [exact (convert_cross_meth call c K (11 + n) _ _ tr t u a j z w sc J)|reflexivity].
Qed.

(* the model of tokenFallback, its second branch named *)
Definition other_request (from : addr) (v : Z) (d : data) : M rv :=
  bind (this c) (fun sc => bind (ecall call c (s_registry sc) (MGetAddress "Network")) (fun r =>
  bind (require (match r with RAddr network => bool_decide (from = network) | _ => false end) "trader must be network only") (fun _ =>
  match conv_request d with
  | None => fail "invalid request"
  | Some (to_token, min_return) => bind (conv_convert call c from (c_sender c) to_token v min_return) (fun r => ret (RInt r))
  end))).
Lemma fallback_model from v d w sc :
  conv_tokenFallback call c from v d (at_ c w sc) =
  if 0 <? v then
    match (if bool_decide (from = s_owner sc) && cn_set (conn sc (c_sender c)) then bind (is_active call c) (fun b => ret (negb b)) else ret false) (at_ c w sc) with
    | Ok (true, w') => Ok (RNone, w')
    | Ok (false, w') => other_request from v d w'
    | Err e => Err e
    end
  else Err "Amount should be greater than 0".
Proof.
  unfold conv_tokenFallback, bind at 1, require_positive_value, require at 1. destruct (0 <? v); [|reflexivity].
  unfold ret at 1. unfold bind at 1. rewrite this_at. unfold bind at 1.
  match goal with |- (match ?x with _ => _ end) = _ => destruct x as [[[|] w']|]; reflexivity end.
Qed.

Lemma fallback_meth n m tail from v d w sc :
  denote call c (abind (ccall c (100 + n) m tail (closure Conv "tokenFallback") [VAddr from; VInt v; VBytes d] []) answer) (at_ c w sc) =
  of_res (conv_tokenFallback call c from v d (at_ c w sc)).
Proof.
  cbn [Nat.add]. rewrite denote_abind. enter Conv "tokenFallback". next. rewrite fallback_model. 
  destruct (0 <? v); [|reflexivity]. go. next. go.
  rewrite denote_if_then.
  match goal with
  | |- context [denote ?cl ?c (eval ?a ?b ?d ?e ?f ?g ?h ?i ?j ?k) ?w] =>
      let t' := fresh "t" in let E := fresh "E" in remember (eval a b d e f g h i j k) as t' eqn:E; tree_in E; subst t'
  end. go.
  match goal with |- andthen (andthen _ ?g) ?h = _ => set (G := g);
    assert (HF : forall w sc, andthen (G (VBool false, at_ c w sc)) h = of_res (other_request from v d (at_ c w sc)));
    [|assert (HT : forall w, andthen (G (VBool true, w)) h = Done (RNone, w)) by (intros w0; reflexivity)]
  end.
  { clear w sc. intros w sc. subst G. cbn [fst snd]. unfold other_request, bind. rewrite this_at.
    rewrite denote_branch. next. go. next. rewrite denote_call. unfold ecall.
    destruct (call_at call c K (s_registry sc) 0 (MGetAddress "Network") w sc) as [[e ->]|(r & w1 & sc1 & ->)]; [reflexivity|].
    set (sc2 := set_token (s_token sc) sc1). clearbody sc2.  go. next.
    replace (match r with RAddr network => bool_decide (from = network) | _ => false end) with (rv_is from r) by by destruct r.
    destruct (rv_is from r); [|reflexivity]. go. rewrite denote_try by reflexivity.
    next. destruct d as [d|o]; [reflexivity|]. unfold data_object, conv_request. go.
    cbv beta iota delta [require ret fail]. next. unfold field. destruct (o !! "toToken") as [[| | |s|]|] eqn:Es; try reflexivity.
    unfold json_str. go. unfold from_text. destruct (addr_from_string s) as [u|] eqn:Eu; [|destruct (o !! "minReturn") as [[]|]; reflexivity]. go.
    next. unfold field. destruct (o !! "minReturn") as [j|] eqn:Ej; [|reflexivity]. go.
    ret_call Conv "_convert".
    match goal with |- andthen (andthen ?d _) _ = _ => assert (H : agrees c VInt d (match json_int j with Some z => conv_convert call c from (c_sender c) u v z (at_ c w1 sc2) | None => Err "" end))
      by exact (convert_meth (4 + n) _ _ from (c_sender c) u v j w1 sc2) end.
    destruct (json_int j) as [z|]; (destruct H as [[-> [e H]]|(a & w2 & sc3 & -> & H)]; [|try discriminate H]).
    - rewrite H. reflexivity.
    - rewrite H. reflexivity.
    - reflexivity. }
  unfold same_addr. destruct (bool_decide (from = s_owner sc)); [|exact (HF w sc)].
  destruct (cn_set (conn sc (c_sender c))); [|exact (HF w sc)]. cbn [andb]. rewrite denote_call. unfold bind. rewrite is_active_at.
  destruct (call_at call c K (s_token sc) 0 MGetOwner w sc) as [[e ->]|(r & w1 & sc1 & ->)]; [reflexivity|]. go.
  destruct (rv_is (c_self c) r); [apply HF|apply HT].
Qed.
Lemma return_meth n m tail t u a w sc :
  agrees c pair_dict (denote call c (ccall c (80 + n) m tail (closure Conv "getReturn") [VAddr t; VAddr u; VInt a] []) (at_ c w sc))
    (getReturn call c t u a (at_ c w sc)).
Proof.
  cbn [Nat.add]. enter Conv "getReturn". next. unfold getReturn, bind, require, ret, fail.
  unfold same_addr. rewrite bd_not. destruct (bool_decide (t = u)); [apply agrees_fail|]. go. rewrite this_at.
  next. go. next_if. unfold same_addr. destruct (bool_decide (u = s_token sc)).
  { ret_call Conv "get_purchase_return". apply agrees_then; [exact (purchase_meth' call c K (32 + n) _ _ t a w sc)|reflexivity]. }
  next_if. unfold same_addr. destruct (bool_decide (t = s_token sc)).
  { ret_call Conv "get_sale_return". apply agrees_then; [exact (sale_meth call c K (30 + n) _ _ u a w sc)|reflexivity]. }
  rewrite denote_done. cbv beta iota delta [rest_of fst snd]. rewrite denote_done. cbv beta iota delta [rest_of fst snd].
  ret_call Conv "get_cross_connector_return". apply agrees_then; [exact (cross_meth' call c K (33 + n) _ _ t u a w sc)|reflexivity].
Qed.
Lemma final_src v mag w sc :
  handler_src call Conv c (MGetFinalAmount v mag) (at_ c w sc) = of_res (conv_handler call c (MGetFinalAmount v mag) (at_ c w sc)).
Proof.
  start. tree. unmodel. repeat run_step.
  assert (N : (mag <? 0) = negb (0 <=? mag)) by (rewrite Z.ltb_antisym; reflexivity). rewrite !N.
  destruct (0 <=? mag) eqn:M; cbv beta iota delta [negb]; repeat run_step; [|reflexivity].
  apply Z.leb_le in M. assert (P : 1000000 ^ mag =? 0 = false) by (apply Z.eqb_neq; pose proof (Z.pow_pos_nonneg 1000000 mag); lia).
  rewrite P, this_at. reflexivity.
Qed.
Lemma conv_src m w sc : handler_src call Conv c m (at_ c w sc) = of_res (conv_handler call c m (at_ c w sc)).
Proof.
  assert (S : match m with MTokenFallback _ _ _ | MGetReturn _ _ _ | MGetFinalAmount _ _ => True | _ => handler_src call Conv c m (at_ c w sc) = of_res (conv_handler call c m (at_ c w sc)) end).
  { each_message m. all: try exact I. all: method K.
    (* getConnectorAt, getConnector *)
    all: try (match goal with H : conn_token _ _ = _ |- _ => unfold conn_token, conn_count in H; norm_in H end;
      repeat match goal with H : ?x = ?b |- _ => match b with true => idtac | false => idtac end; match goal with H' : context [x] |- _ => tryif constr_eq H H' then fail else rewrite H in H' end end;
      cbv beta iota delta [andb] in *; first [discriminate | match goal with H : _ !! _ = _ |- _ => rewrite H end; reflexivity | congruence]).
    all: try match goal with |- context [?m !! ?t] => destruct (m !! t) as [[]|] end; norm; try reflexivity.
    all: match goal with H : cn_set _ = true |- _ => cbn in H; first [discriminate H | rewrite H; reflexivity] end. }
  destruct m; try exact S; clear S.
  - start. rewrite (method_src_at _ _ _ _ (closure Conv "tokenFallback")) by (vm_compute; reflexivity). apply (fallback_meth 0).
  - start. rewrite (method_src_at _ _ _ _ (closure Conv "getReturn")) by (vm_compute; reflexivity). rewrite denote_abind.
    match goal with |- andthen (denote _ _ (_ (100%nat) ?mm ?tl _ _ _) _) _ = _ => destruct (return_meth 20 mm tl from to v w sc) as [[H [e H']]|([x y] & w1 & sc1 & H & H')] end.
    + refine (eq_trans (f_equal (fun d => andthen d _) H) _). change (conv_handler call c (MGetReturn from to v)) with (bind (getReturn call c from to v) (fun r => ret (RRet r.1 r.2))). unfold bind. rewrite H'. reflexivity.
    + refine (eq_trans (f_equal (fun d => andthen d _) H) _). change (conv_handler call c (MGetReturn from to v)) with (bind (getReturn call c from to v) (fun r => ret (RRet r.1 r.2))). unfold bind. rewrite H'. reflexivity.
  - apply final_src.
Qed.
End converter.
