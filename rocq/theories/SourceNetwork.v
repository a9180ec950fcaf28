(* The network's conversions: their source, interpreted, is the model of World.v. *)
From Coq Require Import String ZArith Lia.
From stdpp Require Import base countable list numbers strings gmap.
From Verif Require Import Res PySyntax PySource Codec World WorldNet PySemantics SourceBase SourceSteps SourceTokens SourcePath SourceHop.
Local Open Scope string_scope.
Local Open Scope list_scope.
Local Open Scope Z_scope.

Lemma denote_expr_fail {A} cl c order attrs inst n m tail e f xs ss fv (k : outcome * env -> act A) w :
  PySemantics.eval c order attrs names inst n m tail e f = Ret fv -> denote cl c (evals c order attrs inst n m tail e xs) w = Failed ->
  denote cl c (abind (PySemantics.exec c order attrs names inst (S (S (S n))) m tail e (SExpr (ECall f xs []) :: ss)) k) w = Failed.
Proof. intros Ef Ex. rewrite denote_next, step_expr, denote_abind, eval_call, Ef, abind_ret, denote_abind, Ex. reflexivity. Qed.

Section network.
Variables (call : bool -> addr -> addr -> Z -> msg -> M rv) (c : ctx).
Hypothesis K : keeps call c.
Notation hop := (hop call c).

(* the indices of the loops *)
Fixpoint odds (i : Z) (p : list addr) : list Z := match p with _ :: _ :: p => i :: odds (i + 2) p | _ => [] end.
Lemma convert_by_path_eq from fl to rest a m :
  convert_by_path call c from (fl :: to :: rest) a m =
  bind (ecall call c fl MGetOwner) (fun r => bind (as_addr r) (fun cv => bind (ecall call c to (MBalanceOf (c_self c))) (fun r1 =>
  bind (as_int r1) (fun before => bind (ecall call c from (MTransfer cv a (Some (hop_data to (match rest with [] => m | _ => JInt 1 end))))) (fun _ =>
  bind (ecall call c to (MBalanceOf (c_self c))) (fun r2 => bind (as_int r2) (fun after => convert_by_path call c to rest (after - before) m))))))).
Proof. reflexivity. Qed.
Lemma hop_then from fl to rest a m w :
  convert_by_path call c from (fl :: to :: rest) a m w =
  match hop from fl to a (match rest with [] => m | _ => JInt 1 end) w with
  | Ok ((_, before, after), w') => convert_by_path call c to rest (after - before) m w'
  | Err e => Err e
  end.
Proof.
  rewrite convert_by_path_eq. unfold hop, bind, ret. 
  repeat (match goal with |- (match ?x with _ => _ end) = _ => destruct x as [[? ?]|]; [|reflexivity] end). reflexivity.
Qed.
Lemma loop_meth n v f p0 l : least v -> forall rest pre from t0 e a w sc,
  l = pre ++ map VAddr rest -> Nat.even (List.length rest) = true -> rest <> [] \/ t0 = from -> round e l a v f t0 p0 from ->
  let d := denote call c (loop_each c (order_of Net) (attrs_of Net) formula_object (40 + n) "network.network" net_tail "i" hop_body e (map VInt (odds (Z.of_nat (List.length pre)) rest))) (at_ c w sc) in
  let r := convert_by_path call c from rest a (as_json v) (at_ c w sc) in
  (d = Failed /\ exists e, r = Err e) \/
  (exists e' to a' w' sc', d = Done ((Next, e'), at_ c w' sc') /\ round e' l a' v f to p0 to /\ r = Ok ((to, a'), at_ c w' sc')).
Proof.
  intros Hv. refine (list_ind2 _ _ _ _).
  - intros pre from t0 e a w sc _ _ [H| ->] He; [done|]. right. exists e, from, a, w, sc. repeat split. exact He.
  - intros x pre from t0 e a w sc _ H. discriminate H.
  - intros fl to rest IH pre from t0 e a w sc Hl Hev _ He. cbn [odds map]. cbv zeta. rewrite denote_loop_cons.
    rewrite hop_then.
    set (last := match rest with [] => true | _ => false end).
    assert (Hlen : List.length l = (List.length pre + 2 + List.length rest)%nat).
    { rewrite Hl, app_length, map_length. cbn [List.length]. lia. }
    assert (E1 : l !! Z.to_nat (Z.of_nat (List.length pre)) = Some (VAddr fl)).
    { rewrite Nat2Z.id, Hl, lookup_app_r by lia. rewrite Nat.sub_diag. reflexivity. }
    assert (E2 : l !! Z.to_nat (Z.of_nat (List.length pre) + 1) = Some (VAddr to)).
    { replace (Z.to_nat (Z.of_nat (List.length pre) + 1)) with (S (List.length pre)) by lia. rewrite Hl, lookup_app_r by lia.
      replace (S (List.length pre) - List.length pre)%nat with 1%nat by lia. reflexivity. }
    assert (E3 : (Z.of_nat (List.length pre) =? Z.of_nat (List.length l) - 2) = last).
    { rewrite Hlen. subst last. destruct rest as [|x rest]; [apply Z.eqb_eq; cbn [List.length]; lia|apply Z.eqb_neq; cbn [List.length]; lia]. }
    pose proof (hop_meth call c K n e l a v f t0 p0 from _ fl to last w sc Hv He (Nat2Z.is_nonneg _) E1 E2 E3) as H.
    replace (as_json (if last then v else VInt 1)) with (match rest with [] => as_json v | _ => JInt 1 end) in H by (subst last; by destruct rest).
    destruct H as [[-> [err ->]]|([[r before] after] & w1 & sc1 & -> & ->)]; [left; split; [reflexivity|eauto]|].
    cbn [andthen fst snd]. 
    assert (Hr := after_round l v f p0 fl to (Z.of_nat (List.length pre)) (if last then v else VInt 1) r before after).
    unfold after_hop in Hr |- *. cbn [fst snd] in Hr |- *.
    replace (Z.of_nat (List.length pre) + 2) with (Z.of_nat (List.length (pre ++ [VAddr fl; VAddr to]))) by (rewrite app_length; cbn [List.length]; lia).
    apply (IH (pre ++ [VAddr fl; VAddr to]) to to); [by rewrite <- app_assoc|exact Hev|by right|exact Hr].
Qed.
Lemma range_odds rest a : Nat.even (List.length rest) = true -> range_list a (a + Z.of_nat (List.length rest)) 2 = odds a rest.
Proof.
  intros H. unfold range_list. change (0 <? 2) with true. cbv iota.
  replace (a + Z.of_nat (List.length rest) - a + 2 - 1) with (Z.of_nat (List.length rest) + 1) by lia.
  revert rest H a. refine (list_ind2 _ _ _ _); [reflexivity|intros x H; discriminate H|].
  intros x y rest IH H a. cbn [List.length odds].
  replace (Z.of_nat (S (S (List.length rest))) + 1) with (Z.of_nat (List.length rest) + 1 + 1 * 2) by lia.
  rewrite Z.div_add by lia. rewrite Z2Nat.inj_add by (try apply Z.div_pos; lia). change (Z.to_nat 1) with 1%nat. rewrite Nat.add_comm. cbn [Nat.add seq map].
  f_equal; [lia|]. rewrite <- (IH H (a + 2)). rewrite <- seq_shift, map_map. apply map_ext. intros i. lia.
Qed.

Lemma by_path_meth n m tail p0 rest a v f w sc :
  least v -> Nat.even (List.length rest) = true -> rest <> [] ->
  agrees c (fun x => VTuple [VAddr x.1; VInt x.2])
    (denote call c (ncall c (60 + n) m tail (closure Net "_convert_by_path") [VList (map VAddr (p0 :: rest)); VInt a; v; VAddr f] []) (at_ c w sc))
    (convert_by_path call c p0 rest a (as_json v) (at_ c w sc)).
Proof.
  intros Hv Hev Hne. remember (map VAddr (p0 :: rest)) as l eqn:Hl.
  assert (Hlen : Z.of_nat (List.length l) = 1 + Z.of_nat (List.length rest)) by (rewrite Hl, map_length; cbn [List.length]; lia).
  cbn [Nat.add]. enter Net "_convert_by_path". next. go.
  erewrite denote_assign_item; [|vm_compute; reflexivity|vm_compute; reflexivity|lia|rewrite Hl; reflexivity].
  next. go. next. go.
  erewrite denote_for with (vi := VRange 1 (Z.of_nat (List.length l)) 2); [|vm_compute; reflexivity|reflexivity]. rewrite Hlen, range_odds by exact Hev.
  rewrite denote_abind.
  match goal with |- agrees _ _ (andthen ?D _) _ =>
    assert (H : (D = Failed /\ exists e, convert_by_path call c p0 rest a (as_json v) (at_ c w sc) = Err e) \/
      (exists e' to a' w' sc', D = Done ((Next, e'), at_ c w' sc') /\ round e' l a' v f to p0 to /\ convert_by_path call c p0 rest a (as_json v) (at_ c w sc) = Ok ((to, a'), at_ c w' sc')))
      by exact (loop_meth (12 + n) v f p0 l Hv rest [VAddr p0] p0 zero_score (env0 l a v f zero_score p0 p0) a w sc Hl Hev (or_introl Hne) (or_introl eq_refl))
  end.
  destruct H as [[-> [e ->]]|(e' & to & a' & w' & sc' & -> & He & ->)]; [apply agrees_fail|].
  apply agrees_done. cbn [andthen fst snd]. cbv beta iota delta [rest_of fst snd].
  destruct He as [->|(?&?&?&?&?&?&?&?&?&?&->)]; unfold env0, env1; next; reflexivity.
Qed.
Lemma internal_meth n m tail p0 rest a v f w sc :
  least v -> Nat.even (List.length rest) = true -> rest <> [] ->
  agrees c VInt
    (denote call c (ncall c (70 + n) m tail (closure Net "_convert_for_internal") [VList (map VAddr (p0 :: rest)); VInt a; v; VAddr f] []) (at_ c w sc))
    (convert_for_internal call c (p0 :: rest) a (as_json v) f (at_ c w sc)).
Proof.
  intros Hv Hev Hne. unfold convert_for_internal. unfold bind at 1.
  pose proof (fun n m tail => by_path_meth n m tail p0 rest a v f w sc Hv Hev Hne) as H.
  remember (map VAddr (p0 :: rest)) as l eqn:Hl. clear Hl.
  cbn [Nat.add]. enter Net "_convert_for_internal".
  erewrite denote_assign_call'; [| |vm_compute; reflexivity]; [|instantiate (1 := closure Net "_convert_by_path"); vm_compute; reflexivity].
  match goal with |- agrees _ _ (andthen ?D _) _ =>
    assert (H' : agrees c (fun x => VTuple [VAddr x.1; VInt x.2]) D (convert_by_path call c p0 rest a (as_json v) (at_ c w sc))) by exact (H (6 + n)%nat _ _) end.
  clear H. destruct H' as [[-> [? ->]]|([to a'] & w1 & sc1 & -> & ->)]; [apply agrees_fail|].
  cbn [andthen fst snd].
  match goal with |- context [denote call c (assign ?c' ?o ?at_ ?nm ?i ?nn ?mm ?tl ?e ?x ?y) _] =>
    let t' := fresh "t" in let E := fresh "E" in remember (assign c' o at_ nm i nn mm tl e x y) as t' eqn:E; tree_in E; subst t' end.
  rewrite denote_ret. cbn [andthen fst snd]. whole K.
Qed.

Lemma valid_shape p : valid_path p = true -> exists p0 rest, p = p0 :: rest /\ Nat.even (List.length rest) = true /\ rest <> [].
Proof.
  intros H. unfold valid_path in H. rewrite !andb_true_iff in H. destruct H as [[[H1 _] H2] _]. apply bool_decide_eq_true_1 in H1, H2.
  destruct p as [|p0 rest]; [cbn [List.length] in H1; lia|]. exists p0, rest. cbn [List.length] in H1, H2. split; [reflexivity|]. split; [|intros ->; cbn in H1; lia].
  destruct (Nat.Even_or_Odd (List.length rest)) as [E|[k Hk]]; [by apply Nat.even_spec|].
  exfalso. rewrite Hk in H2. replace (S (2 * k + 1)) with ((k + 1) * 2)%nat in H2 by lia. rewrite Nat.mod_mul in H2; lia.
Qed.
Lemma convert_for_meth n m tail path z f w sc :
  agrees c VInt (denote call c (ncall c (90 + n) m tail (closure Net "convertFor") [VStr path; VInt z; VAddr f] []) (at_ c w sc))
    (convertFor call c path z f (at_ c w sc)).
Proof.
  cbn [Nat.add]. enter Net "convertFor". unfold convertFor.
  first_call Net "_convert_path".
  match goal with |- agrees _ _ (andthen ?D _) _ =>
    assert (H : D = match convert_path path with Some p => Done (VList (map VAddr p), at_ c w sc) | None => Failed end)
      by exact (path_meth call c (66 + n) _ _ (VStr path) (at_ c w sc) (or_introl (ex_intro _ path eq_refl))) end.
  rewrite H. clear H. destruct (convert_path path) as [p|]; [|apply agrees_fail]. cbn [andthen fst snd].
  pose proof (fun n m tail => valid_meth call c n m tail p (at_ c w sc)) as V.
  pose proof (valid_shape p) as Sh.
  remember (map VAddr p) as l eqn:Hl.
  match goal with |- context [update "converted_path" ?x ?e] => let e' := eval vm_compute in (update "converted_path" x e) in change (update "converted_path" x e) with e' end.
  erewrite denote_expr_call; [| |vm_compute; reflexivity]; [|instantiate (1 := closure Net "_require_valid_path"); vm_compute; reflexivity].
  match goal with |- agrees _ _ (andthen ?D _) _ =>
    assert (H : D = if valid_path p then Done (VNone, at_ c w sc) else Failed) by exact (V (55 + n)%nat _ _) end.
  rewrite H. clear H V. unfold bind, require_valid_path, require, ret, fail.
  destruct (valid_path p); [|apply agrees_fail]. destruct (Sh eq_refl) as (p0 & rest & -> & Hev & Hne). clear Sh.
  cbn [andthen fst snd].
  next. unfold require_positive_value, require, ret, fail. destruct (0 <? z); [|apply agrees_fail]. go.
  next. unfold require_valid_address, is_valid_address, require, ret, fail. 
  unfold same_addr. rewrite bd_not. destruct (bool_decide (f = zero_score)); [apply agrees_fail|]. go.
  next. unfold require_not_this, require, ret, fail. unfold same_addr. rewrite bd_not. destruct (bool_decide (c_self c = f)); [apply agrees_fail|]. go.
  next. go. rewrite this_at.
  erewrite denote_assign_item; [|vm_compute; reflexivity|vm_compute; reflexivity|lia|rewrite Hl; reflexivity].
  next. unfold icx_token. 
  destruct (default false (s_icx_tokens sc !! p0)); [|apply agrees_fail]. go.
  next. rewrite denote_call. unfold World.icx_transfer.
  destruct (call_at call c K p0 (c_value c) MFallback w sc) as [[e ->]|(r & w1 & sc1 & ->)]; [apply agrees_fail|].
  set (sc2 := set_token (s_token sc) sc1). clearbody sc2. go.
  ret_call Net "_convert_for_internal". subst l.
  apply agrees_then; [exact (internal_meth (7 + n) _ _ p0 rest (c_value c) (VInt z) f w1 sc2 (or_introl (ex_intro _ z eq_refl)) Hev Hne)|reflexivity].
Qed.
Lemma convert_meth n m tail path z w sc :
  agrees c VInt (denote call c (ncall c (98 + n) m tail (closure Net "convert") [VStr path; VInt z] []) (at_ c w sc))
    (convertFor call c path z (c_sender c) (at_ c w sc)).
Proof.
  cbn [Nat.add]. enter Net "convert". ret_call Net "convertFor".
  apply agrees_then; [exact (convert_for_meth (4 + n) _ _ path z (c_sender c) w sc)|reflexivity].
Qed.

(* getExpectedReturnByPath *)
Lemma evals_item n m tail e x ix y l z u v w :
  neval c n m tail e x = Ret (VList l) -> neval c n m tail e ix = Ret (VInt z) -> 0 <= z -> l !! Z.to_nat z = Some u -> neval c (S n) m tail e y = Ret v ->
  denote call c (evals c (order_of Net) (attrs_of Net) formula_object (S n) m tail e [ESub x ix; y]) w = Done ([u; v], w).
Proof.
  intros Ex Ei Hz Hl Hy. cbn [evals]. rewrite denote_abind, eval_item, Ex, abind_ret, Ei, abind_ret.
  cbn [subscript need_int]. apply Z.ltb_ge in Hz. rewrite denote_cond, Hz, denote_need, Hl, denote_ret. cbn [andthen fst snd].
  rewrite Hy. reflexivity.
Qed.
Definition quote_body : list stmt := Eval vm_compute in
  match f_body meth_Network_getExpectedReturnByPath with [_; _; _; _; _; SFor _ _ b; _] => b | _ => [] end.
Definition quote_round (e : env) path l (a0 a : Z) from : Prop :=
  e = [("self", VSelf); ("_path", VStr path); ("_amount", VInt a0); ("converted_path", VList l); ("amount", VInt a); ("from_token_address", VAddr from)] \/
  (exists i t ft cv, e = [("self", VSelf); ("_path", VStr path); ("_amount", VInt a0); ("converted_path", VList l); ("amount", VInt a); ("from_token_address", VAddr from);
    ("i", i); ("to_token_address", t); ("flexible_token", ft); ("converter", cv)]).
Definition quote (from fl to : addr) (a : Z) : M (addr * Z) :=
  bind (ecall call c fl MGetOwner) (fun r => bind (as_addr r) (fun cv => bind (ecall call c cv (MGetReturn from to a)) (fun r =>
  match rv_amount r with Some a' => ret (cv, a') | None => fail "KeyError" end))).
Definition after_quote path l a0 fl to i (x : addr * Z) : outcome * env :=
  (Next, [("self", VSelf); ("_path", VStr path); ("_amount", VInt a0); ("converted_path", VList l); ("amount", VInt x.2); ("from_token_address", VAddr to);
    ("i", VInt i); ("to_token_address", VAddr to); ("flexible_token", flex_proxy fl); ("converter", VProxy x.1 "abstractmethod" "interfaces.abc_converter" "ABCConverter")]).
Lemma quote_meth n e path l a0 a from i fl to w sc :
  quote_round e path l a0 a from -> 0 <= i -> l !! Z.to_nat i = Some (VAddr fl) -> l !! Z.to_nat (i + 1) = Some (VAddr to) ->
  agrees c (after_quote path l a0 fl to i)
    (denote call c (nexec c (40 + n) "network.network" net_tail (update "i" (VInt i) e) quote_body) (at_ c w sc))
    (quote from fl to a (at_ c w sc)).
Proof.
  intros He Hi H1 H2. rewrite denote_eta. unfold quote_body.
  destruct He as [->|(?&?&?&?&->)]; cbn [update String.eqb Ascii.eqb Bool.eqb Nat.add];
  (erewrite denote_assign_item; [|vm_compute; reflexivity|computed|lia|exact H2]).
  all: match goal with |- context [update "to_token_address" ?x ?e] => let e' := eval vm_compute in (update "to_token_address" x e) in change (update "to_token_address" x e) with e' end.
  all: erewrite denote_assign_call'; [| |eapply evals_item; [vm_compute; reflexivity|vm_compute; reflexivity|exact Hi|exact H1|vm_compute; reflexivity]]; [|vm_compute; reflexivity].
  all: match goal with |- context [andthen (denote call c ?t ?w) _] => let t' := fresh "t" in let E := fresh "E" in remember t as t' eqn:E; tree_in E; subst t' end.
  all: go.
  all: match goal with |- context [denote call c ?t ?w] => let t' := fresh "t" in let E := fresh "E" in remember t as t' eqn:E; tree_in E; subst t' end.
  all: go.
  all: match goal with |- context [denote call c ?t ?w] => let t' := fresh "t" in let E := fresh "E" in remember t as t' eqn:E; tree_in E; subst t' end.
  all: cbv beta iota zeta delta [quote bind ecall after_quote ret]; destruct sc; norm;
    repeat first [step K | match goal with H : rv_amount ?x = _ |- context [rv_amount ?x] => rewrite H end].
Qed.
Lemma quote_then from fl to rest a w :
  expected_return call c from (fl :: to :: rest) a w =
  match quote from fl to a w with
  | Ok ((_, a'), w') => expected_return call c to rest a' w'
  | Err e => Err e
  end.
Proof.
  change (expected_return call c from (fl :: to :: rest) a) with
    (bind (ecall call c fl MGetOwner) (fun r => bind (as_addr r) (fun cv => bind (ecall call c cv (MGetReturn from to a)) (fun r =>
     match r with RRet a' _ => expected_return call c to rest a' | _ => fail "KeyError" end)))).
  unfold quote, bind, ret.
  repeat (match goal with |- (match ?x with _ => _ end) = _ => destruct x as [[? ?]|]; [|reflexivity] end).
  match goal with |- context [rv_amount ?r] => destruct r; reflexivity end.
Qed.
Lemma quote_loop n path l a0 : forall rest pre from e a w sc,
  l = pre ++ map VAddr rest -> Nat.even (List.length rest) = true -> quote_round e path l a0 a from ->
  let d := denote call c (loop_each c (order_of Net) (attrs_of Net) formula_object (40 + n) "network.network" net_tail "i" quote_body e (map VInt (odds (Z.of_nat (List.length pre)) rest))) (at_ c w sc) in
  let r := expected_return call c from rest a (at_ c w sc) in
  (d = Failed /\ exists e, r = Err e) \/
  (exists e' to a' w' sc', d = Done ((Next, e'), at_ c w' sc') /\ quote_round e' path l a0 a' to /\ r = Ok (a', at_ c w' sc')).
Proof.
  refine (list_ind2 _ _ _ _).
  - intros pre from e a w sc _ _ He. right. exists e, from, a, w, sc. repeat split. exact He.
  - intros x pre from e a w sc _ H. discriminate H.
  - intros fl to rest IH pre from e a w sc Hl Hev He. cbn [odds map]. cbv zeta. rewrite denote_loop_cons, quote_then.
    assert (Hlen : List.length l = (List.length pre + 2 + List.length rest)%nat).
    { rewrite Hl, app_length, map_length. cbn [List.length]. lia. }
    assert (E1 : l !! Z.to_nat (Z.of_nat (List.length pre)) = Some (VAddr fl)).
    { rewrite Nat2Z.id, Hl, lookup_app_r by lia. rewrite Nat.sub_diag. reflexivity. }
    assert (E2 : l !! Z.to_nat (Z.of_nat (List.length pre) + 1) = Some (VAddr to)).
    { replace (Z.to_nat (Z.of_nat (List.length pre) + 1)) with (S (List.length pre)) by lia. rewrite Hl, lookup_app_r by lia.
      replace (S (List.length pre) - List.length pre)%nat with 1%nat by lia. reflexivity. }
    pose proof (quote_meth n e path l a0 a from _ fl to w sc He (Nat2Z.is_nonneg _) E1 E2) as H.
    destruct H as [[-> [err ->]]|([cv a'] & w1 & sc1 & -> & ->)]; [left; split; [reflexivity|eauto]|].
    cbn [andthen fst snd]. unfold after_quote. cbn [fst snd].
    replace (Z.of_nat (List.length pre) + 2) with (Z.of_nat (List.length (pre ++ [VAddr fl; VAddr to]))) by (rewrite app_length; cbn [List.length]; lia).
    apply (IH (pre ++ [VAddr fl; VAddr to]) to); [by rewrite <- app_assoc|exact Hev|]. right. do 4 eexists. reflexivity.
Qed.
Lemma expected_meth n m tail path a w sc :
  agrees c VInt (denote call c (ncall c (80 + n) m tail (closure Net "getExpectedReturnByPath") [VStr path; VInt a] []) (at_ c w sc))
    (getExpectedReturnByPath call c path a (at_ c w sc)).
Proof.
  cbn [Nat.add]. enter Net "getExpectedReturnByPath". unfold getExpectedReturnByPath.
  first_call Net "_convert_path".
  match goal with |- agrees _ _ (andthen ?D _) _ =>
    assert (H : D = match convert_path path with Some p => Done (VList (map VAddr p), at_ c w sc) | None => Failed end)
      by exact (path_meth call c (56 + n) _ _ (VStr path) (at_ c w sc) (or_introl (ex_intro _ path eq_refl))) end.
  rewrite H. clear H. destruct (convert_path path) as [p|]; [|apply agrees_fail]. cbn [andthen fst snd].
  pose proof (fun n m tail => valid_meth call c n m tail p (at_ c w sc)) as V.
  pose proof (valid_shape p) as Sh.
  remember (map VAddr p) as l eqn:Hl.
  match goal with |- context [update "converted_path" ?x ?e] => let e' := eval vm_compute in (update "converted_path" x e) in change (update "converted_path" x e) with e' end.
  erewrite denote_expr_call; [| |vm_compute; reflexivity]; [|instantiate (1 := closure Net "_require_valid_path"); vm_compute; reflexivity].
  match goal with |- agrees _ _ (andthen ?D _) _ =>
    assert (H : D = if valid_path p then Done (VNone, at_ c w sc) else Failed) by exact (V (45 + n)%nat _ _) end.
  rewrite H. clear H V. unfold bind, require_valid_path, require, ret, fail.
  destruct (valid_path p); [|apply agrees_fail]. destruct (Sh eq_refl) as (p0 & rest & -> & Hev & Hne). clear Sh.
  assert (Hlen : Z.of_nat (List.length l) = 1 + Z.of_nat (List.length rest)) by (rewrite Hl, map_length; cbn [List.length]; lia).
  cbn [andthen fst snd].
  next. unfold require_positive_value, require, ret, fail. destruct (0 <? a); [|apply agrees_fail]. go.
  next. go.
  erewrite denote_assign_item; [|vm_compute; reflexivity|vm_compute; reflexivity|lia|rewrite Hl; reflexivity].
  match goal with |- context [update "from_token_address" ?x ?e] => let e' := eval vm_compute in (update "from_token_address" x e) in change (update "from_token_address" x e) with e' end.
  erewrite denote_for with (vi := VRange 1 (Z.of_nat (List.length l)) 2); [|vm_compute; reflexivity|reflexivity]. rewrite Hlen, range_odds by exact Hev.
  rewrite denote_abind.
  match goal with |- agrees _ _ (andthen ?D _) _ =>
    assert (H : (D = Failed /\ exists e, expected_return call c p0 rest a (at_ c w sc) = Err e) \/
      (exists e' to a' w' sc', D = Done ((Next, e'), at_ c w' sc') /\ quote_round e' path l a a' to /\ expected_return call c p0 rest a (at_ c w sc) = Ok (a', at_ c w' sc')))
      by exact (quote_loop (31 + n) path l a rest [VAddr p0] p0 _ a w sc Hl Hev (or_introl eq_refl))
  end.
  destruct H as [[-> [e ->]]|(e' & to & a' & w' & sc' & -> & He & ->)]; [apply agrees_fail|].
  apply agrees_done. cbn [andthen fst snd]. cbv beta iota delta [rest_of fst snd].
  destruct He as [->|(?&?&?&?&->)]; next; reflexivity.
Qed.

(* _convert_bytes_data *)
Ltac reduce_assign := match goal with |- context [denote call c (assign ?c' ?o ?at_ ?nm ?i ?nn ?mm ?tl ?e ?x ?y) _] =>
    let t' := fresh "t" in let E := fresh "E" in remember (assign c' o at_ nm i nn mm tl e x y) as t' eqn:E; tree_in E; subst t' end.
Definition request_dict (rq : request) : value := VDict [("path", VList (map VAddr (rq_path rq))); ("minReturn", VJson (rq_min rq)); ("for", VAddr (rq_for rq))].
Lemma bytes_meth n m tail d from w :
  denote call c (ncall c (60 + n) m tail (closure Net "_convert_bytes_data") [VBytes d; VAddr from] []) w =
  match convert_bytes_data d from with Some rq => Done (request_dict rq, w) | None => Failed end.
Proof.
  cbn [Nat.add]. enter Net "_convert_bytes_data". next. go. next. go. rewrite denote_try by reflexivity.
  next. destruct d as [d|o]; [reflexivity|]. unfold data_object, convert_bytes_data. go.
  destruct (o !! "path") as [jp|] eqn:Ep.
  2: { erewrite denote_assign_fail; [reflexivity|vm_compute; reflexivity|]. tree. go. unfold field. rewrite Ep. reflexivity. }
  erewrite denote_assign_call' with (vs := [VJson jp]) (fv := closure Net "_convert_path"); [|vm_compute; reflexivity|].
  2: { tree. go. unfold field. rewrite Ep. reflexivity. }
  match goal with |- andthen ?D _ = _ =>
    assert (H : D = match path_of (VJson jp) with Some s => match convert_path s with Some p => Done (VList (map VAddr p), w) | None => Failed end | None => Failed end)
      by exact (path_meth call c (31 + n) _ _ (VJson jp) w (or_intror (ex_intro _ jp eq_refl))) end.
  rewrite H. clear H. destruct jp as [| | |path|]; try reflexivity. cbn [path_of].
  destruct (convert_path path) as [p|]; [|destruct (o !! "minReturn") as [[]|]; reflexivity].
  cbn [andthen fst snd]. unfold request_dict.
  cbn [rq_path rq_min rq_for].
  replace (match match o !! "minReturn" with
    | Some jmin =>
        match json_int jmin with
        | Some _ =>
            match o !! "for" with
            | Some (JStr s) => match addr_from_string s with Some a => Some (Request p jmin a) | None => None end
            | Some JNull | None => Some (Request p jmin from)
            | _ => None
            end
        | None => None
        end
    | None => None
    end with Some rq => Done (VDict [("path", VList (map VAddr (rq_path rq))); ("minReturn", VJson (rq_min rq)); ("for", VAddr (rq_for rq))], w) | None => Failed end)
  with (match o !! "minReturn" with
    | Some jmin =>
        match json_int jmin with
        | Some _ =>
            match o !! "for" with
            | Some (JStr s) => match addr_from_string s with Some a => Done (VDict [("path", VList (map VAddr p)); ("minReturn", VJson jmin); ("for", VAddr a)], w) | None => Failed end
            | Some JNull | None => Done (VDict [("path", VList (map VAddr p)); ("minReturn", VJson jmin); ("for", VAddr from)], w)
            | _ => Failed
            end
        | None => Failed
        end
    | None => Failed
    end).
  2: { destruct (o !! "minReturn") as [jmin|]; [|reflexivity]. destruct (json_int jmin); [|reflexivity]. destruct (o !! "for") as [[| | |s|]|]; try reflexivity. destruct (addr_from_string s); reflexivity. }
  remember (map VAddr p) as l eqn:Hl. clear Hl. reduce_assign. rewrite denote_ret. cbn [andthen fst snd].
  tree. go. unfold field. destruct (o !! "minReturn") as [jmin|]; [|reflexivity]. go.
  assert (Hi : json_is_int jmin = match json_int jmin with Some _ => true | None => false end) by by destruct jmin.
  rewrite Hi. destruct (json_int jmin); [|reflexivity]. unfold has_field.
  destruct (o !! "for") as [[| | |s|]|] eqn:Ef; try (vm_compute; reflexivity).
Qed.
(* tokenFallback *)
Lemma fallback_meth n m tail from v d w sc :
  agrees c (fun _ : unit => VNone) (denote call c (ncall c (90 + n) m tail (closure Net "tokenFallback") [VAddr from; VInt v; VBytes d] []) (at_ c w sc))
    (net_tokenFallback call c from v d (at_ c w sc)).
Proof.
  cbn [Nat.add]. enter Net "tokenFallback". unfold net_tokenFallback.
  next_if. 
  unfold same_data. change data_result with (DRaw "conversionResult").
  destruct (bool_decide (d = DRaw "conversionResult")).
  { apply agrees_done with (a := tt). tree. reflexivity. }
  rewrite denote_done. cbv beta iota delta [rest_of fst snd].
  erewrite denote_assign_call; [| |vm_compute; reflexivity]; [|instantiate (1 := closure Net "_convert_bytes_data"); vm_compute; reflexivity].
  match goal with |- agrees _ _ (andthen ?D _) _ =>
    assert (H : D = match convert_bytes_data d from with Some rq => Done (request_dict rq, at_ c w sc) | None => Failed end)
      by exact (bytes_meth (25 + n) _ _ d from (at_ c w sc)) end.
  rewrite H. clear H. destruct (convert_bytes_data d from) as [[p j f]|]; [|apply agrees_fail]. cbn [andthen fst snd].
  unfold request_dict. cbn [rq_path rq_min rq_for].
  destruct p as [|p0 rest].
  { unfold bind, require. cbn [head]. rewrite bool_decide_eq_false_2 by done.
    erewrite denote_expr_fail; [apply agrees_fail|vm_compute; reflexivity|].
    cbn [evals]. rewrite denote_abind, eval_compare1, denote_abind, eval_item.
    match goal with |- context [abind (eval ?a ?b ?d ?e ?f ?g ?h ?i ?j ?k) _] => change (eval a b d e f g h i j k) with (Ret (VList [])) end. reflexivity. }
  pose proof (fun n m tail => valid_meth call c n m tail (p0 :: rest) (at_ c w sc)) as V.
  pose proof (valid_shape (p0 :: rest)) as Sh.
  pose proof (fun n m tail => internal_meth n m tail p0 rest v (VJson j) f w sc (or_intror (ex_intro _ j eq_refl))) as I.
  cbn [map] in V, I |- *. remember (map VAddr rest) as l eqn:Hl. clear Hl.
  cbn [update String.eqb Ascii.eqb Bool.eqb].
  erewrite denote_expr_call' with (fv := closure_of "network.network" "require") (vs := [VBool (bool_decide (p0 = c_sender c)); VStr "wrong access, only token can call this method"]).
  2: vm_compute; reflexivity.
  2: { cbn [evals]. rewrite denote_abind, eval_compare1, denote_abind, eval_item.
    match goal with |- context [abind (eval ?a ?b ?d ?e ?f ?g ?h ?i ?j ?k) _] => change (eval a b d e f g h i j k) with (Ret (VList (VAddr p0 :: l))) end.
    rewrite abind_ret.
    match goal with |- context [abind (eval ?a ?b ?d ?e ?f ?g ?h ?i ?j ?k) _] => change (eval a b d e f g h i j k) with (Ret (VInt 0)) end.
    rewrite abind_ret. cbn [subscript need_int]. rewrite denote_cond. change (0 <? 0) with false. cbv iota. rewrite denote_need.
    change ((VAddr p0 :: l) !! Z.to_nat 0) with (Some (VAddr p0)). cbv iota. rewrite denote_ret. cbn [andthen fst snd].
    match goal with |- context [abind (eval ?a ?b ?d ?e ?f ?g ?h ?i ?j ?k) _] => change (eval a b d e f g h i j k) with (Ret (VAddr (c_sender c))) end.
    reflexivity. }
  remember (bool_decide (p0 = c_sender c)) as b eqn:Hb.
  match goal with |- context [andthen (denote call c ?t ?w) _] => let t' := fresh "t" in let E := fresh "E" in remember t as t' eqn:E; tree_in E; subst t' end.
  go.
  unfold bind, require, ret, fail. cbn [head].
  rewrite (bool_decide_ext (Some p0 = Some (c_sender c)) (p0 = c_sender c)) by (split; congruence).
  rewrite <- Hb. clear Hb. destruct b; [|apply agrees_fail]. go.
  next. destruct (json_int j) as [z|]; [|apply agrees_fail]. unfold require_positive_value, require, ret, fail. destruct (0 <? z); [|apply agrees_fail]. go.
  next. unfold require_valid_address, is_valid_address, require, ret, fail.
  unfold same_addr. rewrite bd_not. destruct (bool_decide (f = zero_score)); [apply agrees_fail|]. go.
  erewrite denote_expr_call; [| |vm_compute; reflexivity]; [|instantiate (1 := closure Net "_require_valid_path"); vm_compute; reflexivity].
  match goal with |- agrees _ _ (andthen ?D _) _ =>
    assert (H : D = if valid_path (p0 :: rest) then Done (VNone, at_ c w sc) else Failed) by exact (V (51 + n)%nat _ _) end.
  rewrite H. clear H V. unfold require_valid_path, require, ret, fail.
  destruct (valid_path (p0 :: rest)); [|apply agrees_fail]. destruct (Sh eq_refl) as (? & ? & E & Hev & Hne). injection E as <- <-. clear Sh.
  cbn [andthen fst snd].
  erewrite denote_expr_call; [| |vm_compute; reflexivity]; [|instantiate (1 := closure Net "_convert_for_internal"); vm_compute; reflexivity].
  match goal with |- agrees _ _ (andthen ?D _) _ =>
    assert (H : agrees c VInt D (convert_for_internal call c (p0 :: rest) v (as_json (VJson j)) f (at_ c w sc))) by exact (I (10 + n)%nat _ _ Hev Hne) end.
  cbn [as_json dump] in H.
  destruct H as [[-> [e ->]]|(a & w1 & sc1 & -> & ->)]; [apply agrees_fail|].
  apply agrees_done with (a := tt). reflexivity.
Qed.
Lemma net_src m w sc : handler_src call Net c m (at_ c w sc) = of_res (net_handler call c m (at_ c w sc)).
Proof.
  assert (S : match m with MTokenFallback _ _ _ | MConvert _ _ | MConvertFor _ _ _ | MGetExpectedReturnByPath _ _ => True
    | _ => handler_src call Net c m (at_ c w sc) = of_res (net_handler call c m (at_ c w sc)) end).
  { each_message m. all: try exact I. all: method K. }
  destruct m; try exact S; clear S.
  - start. rewrite (method_src_at _ _ _ _ (closure Net "tokenFallback")) by (vm_compute; reflexivity). rewrite denote_abind.
    change (net_handler call c (MTokenFallback from v d)) with (bind (net_tokenFallback call c from v d) (fun _ => ret RNone)). unfold bind.
    match goal with |- andthen (denote _ _ (_ (100%nat) ?mm ?tl _ _ _) _) _ = _ => destruct (fallback_meth 10 mm tl from v d w sc) as [[H [e H']]|([] & w1 & sc1 & H & H')] end;
    (refine (eq_trans (f_equal (fun d => andthen d _) H) _); rewrite H'; reflexivity).
  - start. rewrite (method_src_at _ _ _ _ (closure Net "getExpectedReturnByPath")) by (vm_compute; reflexivity). rewrite denote_abind.
    match goal with |- _ = of_res (net_handler call c (MGetExpectedReturnByPath ?p ?z) _) =>
      change (net_handler call c (MGetExpectedReturnByPath p z)) with (bind (getExpectedReturnByPath call c p z) (fun z => ret (RInt z))); unfold bind;
      match goal with |- andthen (denote _ _ (_ (100%nat) ?mm ?tl _ _ _) _) _ = _ => destruct (expected_meth 20 mm tl p z w sc) as [[H [e H']]|(y & w1 & sc1 & H & H')] end end;
    (refine (eq_trans (f_equal (fun d => andthen d _) H) _); rewrite H'; reflexivity).
  - start. rewrite (method_src_at _ _ _ _ (closure Net "convert")) by (vm_compute; reflexivity). rewrite denote_abind.
    match goal with |- _ = of_res (net_handler call c (MConvert ?p ?z) _) =>
      change (net_handler call c (MConvert p z)) with (bind (convertFor call c p z (c_sender c)) (fun z => ret (RInt z))); unfold bind;
      match goal with |- andthen (denote _ _ (_ (100%nat) ?mm ?tl _ _ _) _) _ = _ => destruct (convert_meth 2 mm tl p z w sc) as [[H [e H']]|(y & w1 & sc1 & H & H')] end end;
    (refine (eq_trans (f_equal (fun d => andthen d _) H) _); rewrite H'; reflexivity).
  - start. rewrite (method_src_at _ _ _ _ (closure Net "convertFor")) by (vm_compute; reflexivity). rewrite denote_abind.
    match goal with |- _ = of_res (net_handler call c (MConvertFor ?p ?z ?f) _) =>
      change (net_handler call c (MConvertFor p z f)) with (bind (convertFor call c p z f) (fun z => ret (RInt z))); unfold bind;
      match goal with |- andthen (denote _ _ (_ (100%nat) ?mm ?tl _ _ _) _) _ = _ => destruct (convert_for_meth 10 mm tl p z f w sc) as [[H [e H']]|(y & w1 & sc1 & H & H')] end end;
    (refine (eq_trans (f_equal (fun d => andthen d _) H) _); rewrite H'; reflexivity).
Qed.
End network.
