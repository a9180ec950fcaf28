(* C81: the last hop of a path alone enforces the minimum return. *)
From Coq Require Import String Ascii ZArith Lia.
From stdpp Require Import base countable list numbers strings gmap relations.
From Verif Require Import Res FormulaModel Codec CodecProofs World WorldSpec Scenario WorldBasics WorldExec WorldInv WorldNet WorldTrade TradingSpec WorldPool WorldLast Properties_Network.
Local Open Scope string_scope.
Local Open Scope list_scope.
Local Open Scope Z_scope.

(* A genuine network N, a token T and, at the end of the path, one converter C whose tokens, registry and administrators are
   genuine and out of the user's hands.  Every other token and converter on the path, and every other contract, is arbitrary.
   If the conversion succeeds, the beneficiary gains at least the minimum z that was asked for. *)
Theorem C81_minimum_enforced_by_last_hop : forall adv fuel u n T N C L from p pre z v d w r w',
  reachable adv w -> kind_at w N = Some KNet -> is_token w T ->
  pool_set_up w C -> stranger w C (EOA u) ->
  p = pre ++ [from; token_of w C; L] ->
  (from = token_of w C \/ from ∈ connectors_of w C) -> (L = token_of w C \/ L ∈ connectors_of w C) ->
  asks d (EOA u) p z (EOA n) ->
  run_tx adv fuel (TCall u T 0 (MTransfer N v (Some d))) w = Ok (r, w') ->
  exists x, 0 < z <= x /\
    (balance_of w L (EOA n) - (if decide (L = T /\ n = u) then v else 0) + x <= balance_of w' L (EOA n) \/
     kind_at w L = Some KIcx /\ icx w (EOA n) + x <= icx w' (EOA n)).
Proof.
  intros adv fuel u n T N C L from p pre z v d w r w' Hr HN HT Hset Hout Hp Hfrom HL Hask H.
  eapply (token_last adv w u C N L from Hr Hset Hout HN HL Hfrom); [exact HT|exists pre; exact Hp|exact Hask|exact H].
Qed.
Print Assumptions C81_minimum_enforced_by_last_hop.

(* the same for conversions of coins *)
Theorem C81_minimum_enforced_for_coins : forall adv fuel u n N C L from p pre text z v m w r w',
  reachable adv w -> kind_at w N = Some KNet ->
  pool_set_up w C -> stranger w C (EOA u) ->
  convert_path text = Some p -> p = pre ++ [from; token_of w C; L] ->
  (from = token_of w C \/ from ∈ connectors_of w C) -> (L = token_of w C \/ L ∈ connectors_of w C) ->
  m = MConvertFor text z (EOA n) \/ m = MConvert text z /\ n = u ->
  run_tx adv fuel (TCall u N v m) w = Ok (r, w') ->
  exists x, r = RInt x /\ 0 < z <= x /\
    (balance_of w L (EOA n) + x <= balance_of w' L (EOA n) \/
     kind_at w L = Some KIcx /\ icx w (EOA n) - (if decide (n = u) then v else 0) + x <= icx w' (EOA n)).
Proof.
  intros adv fuel u n N C L from p pre text z v m w r w' Hr HN Hset Hout Htext Hp Hfrom HL Hm H.
  assert (convert_target m (EOA u) = Some (text, z, EOA n)) as Ht by (destruct Hm as [->|[-> ->]]; done).
  eapply (coin_last adv w u C N L from Hr Hset Hout HN HL Hfrom); [exact Ht|exact Htext|exists pre; exact Hp|exact H].
Qed.
Print Assumptions C81_minimum_enforced_for_coins.

(* A contract that claims to be a token with itself as converter, and sends the network 10^15 ICX tokens for whatever it gets. *)
Definition odd := SCORE 9.
Definition oddity : adversary := fun self c m =>
  match m with
  | MGetOwner => PRet (RAddr self)
  | MTokenFallback from _ _ => if bool_decide (from = network) then PCall false icxt 0 (MTransfer network (10 ^ 15) (Some data_result)) (fun _ => PRet RNone) else PRet RNone
  | MBalanceOf _ => PRet (RInt 0)
  | _ => PRet RNone
  end.
Definition odd_world : world := default world0 (play oddity 20 (setup ++ [TDeploy 3 9 IAdv; call 2 icxt (MTransfer odd (10 ^ 18) None)]) world0).
Lemma odd_played : play oddity 20 (setup ++ [TDeploy 3 9 IAdv; call 2 icxt (MTransfer odd (10 ^ 18) None)]) world0 = Some odd_world.
Proof. apply play_default. vm_compute. reflexivity. Qed.
Lemma odd_reachable : reachable oddity odd_world.
Proof. eapply play_reachable; [by constructor; apply world0_genesis|exact odd_played]. Qed.
Definition pay (p : list addr) (min : Z) : data := DJson (<["path"%string := JStr (path_text p)]> (<["minReturn"%string := JInt min]> ∅)).
Lemma asks_pay p min s : p <> [] -> Forall addr_ok p -> asks (pay p min) s p min s.
Proof.
  intros Hp Hok. exists (<["path"%string := JStr (path_text p)]> (<["minReturn"%string := JInt min]> ∅)), (path_text p), (JInt min).
  split; [done|]. split; [by rewrite lookup_insert|]. split; [by apply C44_round_trip|].
  split; [by rewrite lookup_insert_ne, lookup_insert|]. split; [done|].
  left. split; [left; by rewrite !lookup_insert_ne|done].
Qed.
Lemma odd_set_up : pool_set_up odd_world convA /\ stranger odd_world convA alice.
Proof.
  split.
  { split. { apply conj; [do 3 (apply conj; [by vm_compute|]); by vm_compute|apply conj; by vm_compute]. } split; [by vm_compute|]. split.
    - replace (connectors_of odd_world convA) with [icxt; irct] by (by vm_compute). intros t Ht.
      apply elem_of_cons in Ht as [->|Ht]; [split; [right; left; by vm_compute|by vm_compute]|].
      apply elem_of_list_singleton in Ht as ->. split; [left; by vm_compute|by vm_compute].
    - right. by vm_compute. }
  assert (secure odd_world alice admin) as Ha by (by apply secure_user).
  assert (secure odd_world alice convA) as Hc.
  { apply secure_conv; [by vm_compute| |].
    - by replace (owner_of odd_world convA) with admin by (by vm_compute).
    - replace (pending_owner_of odd_world convA) with zero_score by (by vm_compute). constructor. }
  split.
  - intros X HX. replace (connectors_of odd_world convA) with [icxt; irct] in HX by (by vm_compute).
    replace (token_of odd_world convA) with flexA in HX by (by vm_compute). replace (registry_of odd_world convA) with registry in HX by (by vm_compute).
    destruct HX as [->|[->|[[-> _]|[HX K]]]].
    + replace (owner_of odd_world convA) with admin by (by vm_compute). replace (pending_owner_of odd_world convA) with zero_score by (by vm_compute). split; [done|constructor].
    + replace (owner_of odd_world flexA) with convA by (by vm_compute). replace (pending_owner_of odd_world flexA) with zero_score by (by vm_compute). split; [done|constructor].
    + replace (owner_of odd_world registry) with admin by (by vm_compute). replace (pending_owner_of odd_world registry) with zero_score by (by vm_compute). split; [done|constructor].
    + exfalso. apply elem_of_cons in HX as [->|HX]; [by vm_compute in K|]. apply elem_of_list_singleton in HX as ->. by vm_compute in K.
  - intros a Ha'. replace (manager_of odd_world convA) with (@None addr) in Ha' by (by vm_compute).
    replace (pending_manager_of odd_world convA) with (@None addr) in Ha' by (by vm_compute). by destruct Ha'.
Qed.
(* a conversion whose first hop goes through that contract *)
Definition odd_path := [irct; odd; icxt; flexA; irct].
Example C81_example : reachable oddity odd_world /\ kind_at odd_world network = Some KNet /\ is_token odd_world irct /\
  pool_set_up odd_world convA /\ stranger odd_world convA alice /\ token_of odd_world convA = flexA /\ connectors_of odd_world convA = [icxt; irct] /\
  odd_path = [irct; odd] ++ [icxt; token_of odd_world convA; irct] /\ kind_at odd_world odd = Some KAdv /\
  asks (pay odd_path 400) alice odd_path 400 alice /\
  (w ← play oddity 20 [call 2 irct (MTransfer network 5 (Some (pay odd_path 400)))] odd_world; Some (balance_of w irct alice - balance_of odd_world irct alice + 5)) = Some 1656 /\
  play oddity 20 [call 2 irct (MTransfer network 5 (Some (pay odd_path 4000)))] odd_world = None /\
  (w ← play oddity 20 [TCall 2 network (10 ^ 15) (MConvert (path_text [icxt; flexA; irct]) 400)] odd_world; Some (balance_of w irct alice - balance_of odd_world irct alice)) = Some 1656.
Proof.
  split; [apply odd_reachable|]. split; [by vm_compute|]. split; [left; by vm_compute|]. split; [apply odd_set_up|]. split; [apply odd_set_up|].
  split; [by vm_compute|]. split; [by vm_compute|]. split; [by vm_compute|]. split; [by vm_compute|].
  split; [apply asks_pay; [done|repeat constructor]|]. vm_compute. done.
Qed.

(* The condition on [from] cannot be dropped: if what comes before the last converter is not one of its tokens, nothing is
   delivered although the converter is genuine and the minimum is positive. *)
Definition fake_path := [irct; odd; odd; flexA; flexA].
Theorem C81_last_source_must_be_genuine : reachable oddity odd_world /\ kind_at odd_world network = Some KNet /\ is_token odd_world irct /\
  pool_set_up odd_world convA /\ stranger odd_world convA alice /\
  fake_path = [irct; odd] ++ [odd; token_of odd_world convA; flexA] /\ ~ (odd = token_of odd_world convA \/ odd ∈ connectors_of odd_world convA) /\
  asks (pay fake_path 400) alice fake_path 400 alice /\
  exists r w', run_tx oddity 20 (TCall 2 irct 0 (MTransfer network 5 (Some (pay fake_path 400)))) odd_world = Ok (r, w') /\
    balance_of w' flexA alice = balance_of odd_world flexA alice /\ icx w' alice = icx odd_world alice /\
    balance_of w' irct alice = balance_of odd_world irct alice - 5.
Proof.
  split; [apply odd_reachable|]. split; [by vm_compute|]. split; [left; by vm_compute|]. split; [apply odd_set_up|]. split; [apply odd_set_up|].
  split; [by vm_compute|]. split.
  { replace (token_of odd_world convA) with flexA by (by vm_compute). replace (connectors_of odd_world convA) with [icxt; irct] by (by vm_compute).
    intros [E|E]; [done|]. repeat (apply elem_of_cons in E as [E|E]; [done|]). by apply elem_of_nil in E. }
  split; [apply asks_pay; [done|repeat constructor]|].
  assert (match run_tx oddity 20 (TCall 2 irct 0 (MTransfer network 5 (Some (pay fake_path 400)))) odd_world with
    | Ok (_, w') => (balance_of w' flexA alice =? balance_of odd_world flexA alice) && (icx w' alice =? icx odd_world alice) &&
        (balance_of w' irct alice =? balance_of odd_world irct alice - 5)
    | Err _ => false end = true) as H by (by vm_compute).
  destruct (run_tx _ _ _ _) as [[r w']|]; [|done]. apply andb_prop in H as [[H1 H2]%andb_prop H3]. apply Z.eqb_eq in H1, H2, H3.
  exists r, w'. split; [done|]. exact (conj H1 (conj H2 H3)).
Qed.
Print Assumptions C81_last_source_must_be_genuine.
