(* Property theorems about the network (C43 - C52, C64). *)
From Coq Require Import String Ascii ZArith Lia.
From stdpp Require Import base countable list numbers strings gmap relations.
From Verif Require Import Res FormulaModel Codec CodecProofs World WorldBasics WorldSteps WorldExec WorldSpec Scenario WorldInv WorldMoney WorldAuth
  WorldNet WorldCalls WorldViews WorldConv WorldHop WorldPath WorldOwner WorldCoins WorldTrade WorldMore WorldLive ReadySpec WorldReady WorldTrap WorldAny.
Local Open Scope Z_scope.

(* C43: the methods that take a path refuse it unless ... *)
Definition path_shape (p : list addr) : Prop :=
  (3 <= List.length p <= 21)%nat /\ Nat.odd (List.length p) = true /\
  (* the flexible tokens are pairwise distinct *)
  forall i j a, i <> j -> Nat.odd i = true -> Nat.odd j = true -> p !! i = Some a -> p !! j = Some a -> False.
Lemma lookup_odd p : forall i, odd_positions p !! i = p !! (2 * i + 1)%nat.
Proof.
  induction p as [| |a b p IH] using list_ind2; intros i; [done|by destruct i|].
  cbn [odd_positions]. destruct i as [|i]; [done|]. cbn [lookup list_lookup]. rewrite IH.
  replace (2 * S i + 1)%nat with (S (S (2 * i + 1))) by lia. done.
Qed.
Theorem C43_valid_paths : forall p, valid_path p = true <-> path_shape p.
Proof.
  intros p. rewrite valid_path_iff. unfold path_shape. split; intros (H1 & H2 & H3); (split; [done|]); (split; [done|]).
  - intros i j a Hij Hi Hj Ei Ej. apply Nat.odd_spec in Hi as [i' ->], Hj as [j' ->]. rewrite <- lookup_odd in Ei, Ej.
    pose proof (NoDup_lookup _ _ _ _ H3 Ei Ej). lia.
  - apply NoDup_alt. intros i j a Ei Ej. rewrite lookup_odd in Ei, Ej. destruct (decide (i = j)); [done|]. exfalso.
    apply (H3 (2 * i + 1)%nat (2 * j + 1)%nat a); [lia|apply Nat.odd_spec; by exists i|apply Nat.odd_spec; by exists j|done|done].
Qed.
Print Assumptions C43_valid_paths.
Lemma expected_inv adv fuel ro s N text v w r w' : is_contract N = true -> kind_at w N = Some KNet ->
  exec adv fuel ro s N 0 (MGetExpectedReturnByPath text v) w = Ok (r, w') ->
  exists p, convert_path text = Some p /\ valid_path p = true /\ 0 < v.
Proof.
  intros HN1 HN2 H. apply kind_at_Some in HN2 as (sc & Hsc & K). destruct fuel as [|f]; [done|].
  destruct (proj1 (exec_honest_Ok adv f _ _ _ _ _ _ _ _ _ HN1 Hsc K ltac:(done)) H) as [_ H']. clear H.
  cbn -[getExpectedReturnByPath exec] in H'. apply bind_Ok in H' as (z & w1 & H & _). unfold getExpectedReturnByPath in H.
  destruct (convert_path text) as [p|]; [|done]. exists p. split; [done|]. unfold require_valid_path, require_positive_value in H.
  apply bind_Ok in H as (u & w2 & H0 & H). apply require_Ok in H0 as [H0 _]. apply bind_Ok in H as (u' & w3 & H1 & H).
  apply require_Ok in H1 as [H1 _]. split; [done|]. by apply Z.ltb_lt.
Qed.
Lemma exec_convert_inv adv fuel ro s N v m text z a w r w' : is_contract N = true -> kind_at w N = Some KNet ->
  convert_target m s = Some (text, z, a) -> exec adv fuel ro s N v m w = Ok (r, w') ->
  exists p0 rest, convert_path text = Some (p0 :: rest) /\ valid_path (p0 :: rest) = true /\ 0 < z /\ a <> zero_score /\ a <> N /\ icx_registered w N p0 = true.
Proof.
  intros HN1 HN2 Hm H. destruct fuel as [|f]; [done|]. apply exec_inv in H; [|apply exec_keeps].
  destruct H as (w1 & Hi & _ & [(n & -> & _)|(sc & _ & Hsc & _ & _ & Hh & _ & _)]); [done|].
  rewrite (move_icx_scores _ _ _ _ _ _ Hi) in Hsc. assert (s_kind sc = KNet) as K. { unfold kind_at in HN2. rewrite Hsc in HN2. cbn in HN2. congruence. }
  rewrite K in Hh. specialize (Hh ltac:(done)). eapply convert_inv in Hh; [|exact Hm|cbn; by rewrite (move_icx_scores _ _ _ _ _ _ Hi)].
  destruct Hh as (p0 & rest & r1 & w2 & z' & H1 & H2 & H3 & H4 & H5 & H6 & _). exists p0, rest. repeat (split; [done|]).
  unfold icx_registered. by rewrite (var_sc _ _ _ _ _ Hsc).
Qed.
(* ... it is well-formed.  (A genuine path that is well-formed is accepted by getExpectedReturnByPath: C49.) *)
Theorem C43_paths_are_checked : forall adv fuel ro s N v m text w, is_contract N = true -> kind_at w N = Some KNet ->
  (exists z, m = MConvert text z \/ (exists a, m = MConvertFor text z a) \/ m = MGetExpectedReturnByPath text z /\ v = 0) ->
  succeeds (exec adv fuel ro s N v m) w -> exists p, convert_path text = Some p /\ path_shape p.
Proof.
  intros adv fuel ro s N v m text w HN1 HN2 (z & Hm) (r & w' & H). setoid_rewrite <- C43_valid_paths.
  destruct Hm as [->|[[a ->]|[-> ->]]].
  - eapply exec_convert_inv in H as (p0 & rest & ? & ? & _); [by eexists|done|done|done].
  - eapply exec_convert_inv in H as (p0 & rest & ? & ? & _); [by eexists|done|done|done].
  - apply expected_inv in H as (p & ? & ? & _); [by exists p|done|done].
Qed.
Print Assumptions C43_paths_are_checked.
Example C43_example : path_shape [irct; flexA; icxt] /\ path_shape [irct; flexA; flexA; flexB; flexB] /\
  ~ path_shape [irct; flexA; flexA; flexA; irct] /\ ~ path_shape [irct; flexA].
Proof. rewrite <- !C43_valid_paths. vm_compute. done. Qed.

(* C44: the text of a path: addresses separated by commas, white space around each *)
Theorem C44_path_text : forall text path, convert_path text = Some path <->
  exists l : list entry, l <> [] /\ Forall entry_ok l /\ text = join_comma (map entry_text l) /\ path = map e_addr l.
Proof.
  intros text path. split.
  - apply convert_path_inv.
  - intros (l & H1 & H2 & -> & ->). by apply convert_path_join.
Qed.
Print Assumptions C44_path_text.
Lemma app_nil_r (s : string) : String.append s "" = s.
Proof. induction s as [|c s IH]; [done|]. change (String c (String.append s "") = String c s). f_equal. exact IH. Qed.
Theorem C44_round_trip : forall path, path <> [] -> Forall addr_ok path -> convert_path (join_comma (map addr_to_string path)) = Some path.
Proof.
  intros path H1 H2. apply C44_path_text. exists (map (fun a => Entry "" a "") path). split; [by destruct path|]. split; [|split].
  - apply Forall_forall. intros e He. apply elem_of_list_fmap in He as (a & -> & Ha). split; [constructor|]. split; [|constructor]. by eapply Forall_forall in H2.
  - f_equal. rewrite map_map. apply map_ext. intros a. unfold entry_text. cbn. by rewrite app_nil_r.
  - rewrite map_map. by rewrite map_id.
Qed.
Print Assumptions C44_round_trip.
(* two paths with the same text are the same path: nothing is ambiguous *)
Theorem C44_addresses_have_one_text : forall a b, addr_ok a -> addr_ok b -> addr_to_string a = addr_to_string b -> a = b.
Proof. intros a b Ha Hb E. apply addr_text_roundtrip in Ha, Hb. rewrite E in Ha. congruence. Qed.
Print Assumptions C44_addresses_have_one_text.
Example C44_example : convert_path (" cx0000000000000000000000000000000000000008, hx00000000000000000000000000000000000000ff ") = Some [SCORE 8; EOA 255] /\
  convert_path (utf8_bmp 0x3000 ++ "cx0000000000000000000000000000000000000008" ++ utf8_bmp 0xA0) = Some [SCORE 8] /\ (* ideographic and no-break space *)
  convert_path "cx08" = None /\ convert_path "" = None.
Proof. vm_compute. done. Qed.

(* C45 *)
Theorem C45_requests : forall adv fuel ro s T x d N w, token_at w T -> is_contract N = true -> kind_at w N = Some KNet ->
  succeeds (exec adv fuel ro s T 0 (MTransfer N x d)) w ->
  default data_none d = data_result \/
  exists p z for_, asks (default data_none d) s p z for_ /\ head p = Some T /\ path_shape p /\ 0 < z /\ for_ <> zero_score.
Proof.
  intros adv fuel ro s T x d N w HT HN1 HN2 (r & w' & H). apply exec_transfer_inv in H as (_ & _ & HT1 & _ & _ & _ & _ & f & sc & r2 & w2 & -> & Hsc & H & _); [|apply HT].
  rewrite HN1 in H. set (w1 := wupd T _ [] w) in H.
  assert (kind_at w1 N = Some KNet) as HN2'. { rewrite <- HN2. apply (ledger_kind w w1). by apply move_ledger. }
  apply kind_at_Some in HN2' as (sc1 & Hsc1 & K). destruct f as [|f]; [done|].
  destruct (proj1 (exec_honest_Ok adv f _ _ _ _ _ _ _ _ _ HN1 Hsc1 K ltac:(done)) H) as [_ H']. clear H.
  apply net_fallback_inv in H' as [[-> _]|(rest & rq & z & y & Hd & Hrq & Hp & Hv & Hz & Hz0 & Hfor & _)]; [by left|right].
  cbn [c_sender] in *. exists (T :: rest), z, (rq_for rq). split.
  - apply asks_iff. exists (rq_min rq). split; [|done]. rewrite Hrq, <- Hp. by destruct rq.
  - split; [done|]. split; [by apply C43_valid_paths|done].
Qed.
Print Assumptions C45_requests.
(* the same for a direct call of tokenFallback by any caller T *)
Theorem C45_direct_calls : forall adv fuel ro T from x d N w, is_contract N = true -> kind_at w N = Some KNet ->
  succeeds (exec adv fuel ro T N 0 (MTokenFallback from x d)) w ->
  d = data_result \/ exists p z for_, asks d from p z for_ /\ head p = Some T /\ path_shape p /\ 0 < z /\ for_ <> zero_score.
Proof.
  intros adv fuel ro T from x d N w HN1 HN2 (r & w' & H).
  apply kind_at_Some in HN2 as (sc1 & Hsc1 & K). destruct fuel as [|f]; [done|].
  destruct (proj1 (exec_honest_Ok adv f _ _ _ _ _ _ _ _ _ HN1 Hsc1 K ltac:(done)) H) as [_ H']. clear H.
  apply net_fallback_inv in H' as [[-> _]|(rest & rq & z & y & Hd & Hrq & Hp & Hv & Hz & Hz0 & Hfor & _)]; [by left|right].
  cbn [c_sender] in *. exists (T :: rest), z, (rq_for rq). split.
  - apply asks_iff. exists (rq_min rq). split; [|done]. rewrite Hrq, <- Hp. by destruct rq.
  - split; [done|]. split; [by apply C43_valid_paths|done].
Qed.
Print Assumptions C45_direct_calls.
(* a request has one meaning *)
Theorem C45_unambiguous : forall d s p z a p' z' a', asks d s p z a -> asks d s p' z' a' -> p = p' /\ z = z' /\ a = a'.
Proof.
  intros d s p z a p' z' a' H H'. apply asks_iff in H as (j & H & Hj), H' as (j' & H' & Hj'). rewrite H in H'. injection H' as <- <- <-. rewrite Hj in Hj'. by injection Hj' as <-.
Qed.
Print Assumptions C45_unambiguous.
Definition pay_path (p : list addr) (min : Z) : data := DJson (<["path"%string := JStr (path_text p)]> (<["minReturn"%string := JInt min]> ∅)).
Definition pay_for (p : list addr) (min : Z) (a : addr) : data :=
  DJson (<["for"%string := JStr (addr_to_string a)]> (<["path"%string := JStr (path_text p)]> (<["minReturn"%string := JInt min]> ∅))).
Lemma asks_pay p min s : p <> [] -> Forall addr_ok p -> asks (pay_path p min) s p min s.
Proof.
  intros H1 H2. exists (<["path"%string := JStr (path_text p)]> (<["minReturn"%string := JInt min]> ∅)), (path_text p), (JInt min).
  split; [done|]. split; [by rewrite lookup_insert|]. split; [by apply C44_round_trip|]. split; [by rewrite lookup_insert_ne, lookup_insert|]. split; [done|].
  left. split; [|done]. left. by rewrite !lookup_insert_ne.
Qed.
Lemma asks_pay_for p min s a : p <> [] -> Forall addr_ok p -> addr_ok a -> asks (pay_for p min a) s p min a.
Proof.
  intros H1 H2 H3. eexists _, (path_text p), (JInt min).
  split; [reflexivity|]. split; [by rewrite lookup_insert_ne, lookup_insert|]. split; [by apply C44_round_trip|]. split; [reflexivity|]. split; [done|].
  right. exists (addr_to_string a). split; [by rewrite lookup_insert|]. by apply addr_text_roundtrip.
Qed.
Example C45_example :
  bool_decide (is_Some (play quiet 20 [call 2 irct (MTransfer network 1000 (Some (pay_path [irct; flexA; icxt] 1)))] ready)) = true /\
  (* starts with another token *) play quiet 20 [call 2 irct (MTransfer network 1000 (Some (pay_path [icxt; flexA; irct] 1)))] ready = None /\
  (* no minimum *) play quiet 20 [call 2 irct (MTransfer network 1000 (Some (pay_path [irct; flexA; icxt] 0)))] ready = None /\
  (* no data *) play quiet 20 [call 2 irct (MTransfer network 1000 None)] ready = None.
Proof. vm_compute. done. Qed.

(* C46 *)
Theorem C46_coins : forall adv fuel t w r w' N, is_contract N = true -> kind_at w N = Some KNet ->
  run_tx adv fuel t w = Ok (r, w') -> icx w' N = icx w N.
Proof. intros adv fuel t w r w' N. apply net_icx_tx. Qed.
Print Assumptions C46_coins.
Theorem C46_tokens : forall adv fuel t w r w' N T, reachable adv w -> kind_at w N = Some KNet -> is_token w T ->
  secure w (tx_sender t) (owner_of w N) -> secure w (tx_sender t) (pending_owner_of w N) ->
  (kind_at w T = Some KFlex -> secure w (tx_sender t) (owner_of w T) /\ secure w (tx_sender t) (pending_owner_of w T)) ->
  run_tx adv fuel t w = Ok (r, w') -> balance_of w T N <= balance_of w' T N.
Proof.
  intros adv fuel t w r w' N T Hr HN HT H1 H2 H3 H.
  assert (exists n0, tx_sender t = EOA n0) as [n0 E] by (destruct t; by eexists). rewrite E in *.
  eapply (net_tokens_tx adv w n0 (no_eoa_reachable _ _ Hr) (no_zero_reachable _ _ Hr) N T HN); [|exact HT| |exact E|exact H].
  - split; [by exists KNet|done].
  - intros HK. split; [by apply flex_is_owned|by apply H3].
Qed.
Print Assumptions C46_tokens.
Example C46_example : kind_at ready network = Some KNet /\ owner_of ready network = admin /\ secure ready alice (owner_of ready network) /\
  secure ready alice (pending_owner_of ready network) /\ is_token ready irct.
Proof.
  split; [by vm_compute|]. split; [by vm_compute|]. split; [replace (owner_of ready network) with admin by (by vm_compute); by apply secure_user|].
  split; [replace (pending_owner_of ready network) with zero_score by (by vm_compute); constructor|]. left. by vm_compute.
Qed.

(* C47: what arrives at the beneficiary *)
Lemma user_no_converter adv w p n : reachable adv w -> genuine_path w p -> EOA n ∉ converters w p.
Proof.
  intros Hr HG Hin. unfold converters in Hin. apply elem_of_list_fmap in Hin as (g & E & Hg).
  assert (kind_at w (EOA n) = Some KConv) as K.
  { rewrite E. clear E Hr. induction p as [|a|a b p IH] using list_ind2; cbn in *; [done|by apply elem_of_nil in Hg|].
    destruct HG as (_ & _ & K & _ & HG). apply elem_of_cons in Hg as [->|Hg]; [done|by apply IH]. }
  pose proof (no_eoa_reachable _ _ Hr n) as Hn. unfold kind_at in K. by rewrite Hn in K.
Qed.
Lemma network_no_converter w p N : kind_at w N = Some KNet -> genuine_path w p -> N ∉ converters w p.
Proof.
  intros HN HG Hin. unfold converters in Hin. apply elem_of_list_fmap in Hin as (g & E & Hg).
  assert (kind_at w N = Some KConv) as K; [|congruence].
  rewrite E. clear E HN. induction p as [|a|a b p IH] using list_ind2; cbn in *; [done|by apply elem_of_nil in Hg|].
  destruct HG as (_ & _ & K & _ & HG). apply elem_of_cons in Hg as [->|Hg]; [done|by apply IH].
Qed.
Theorem C47_token_conversion : forall adv fuel u n T N p z v d w r w', reachable adv w -> kind_at w N = Some KNet -> is_token w T -> genuine_path w p ->
  asks d (EOA u) p z (EOA n) ->
  run_tx adv fuel (TCall u T 0 (MTransfer N v (Some d))) w = Ok (r, w') ->
  exists L x, last p = Some L /\ 0 < z <= x /\
    if icx_registered w N L then icx w' (EOA n) = icx w (EOA n) + x
    else balance_of w' L (EOA n) = balance_of w L (EOA n) - (if decide (L = T /\ n = u) then v else 0) + x.
Proof.
  intros adv fuel u n T N p z v d w r w' Hr HN HT HG Ha H. cbn [run_tx] in H.
  eapply token_trade in H as (L & x & _ & HL & _ & _ & Hz & _ & Hicx & _ & Hb & _ & _ & Hc); [|done..].
  exists L, x. split; [done|]. split; [done|]. pose proof (user_no_converter adv w p n Hr HG) as Hn.
  unfold to_tokens, to_coins in *. destruct (icx_registered w N L) eqn:EL.
  - rewrite Hc. unfold at_. rewrite (decide_True (P := EOA n = EOA n)) by done. destruct (decide (EOA n = L)) as [<-|]; [|lia].
    pose proof (no_eoa_reachable _ _ Hr n) as Hn'. specialize (Hicx eq_refl). unfold kind_at in Hicx. by rewrite Hn' in Hicx.
  - rewrite (Hb L (EOA n) Hn). unfold credit. rewrite !(decide_True (P := L = L)) by done. rewrite (decide_True (P := EOA n = EOA n)) by done.
    destruct (decide (L = T)), (decide (EOA n = EOA u)) as [E|E]; destruct (decide (L = T /\ n = u)) as [[]|NE]; try congruence; try lia.
    destruct NE. split; [done|]. by injection E.
Qed.
Print Assumptions C47_token_conversion.
Theorem C47_coin_conversion : forall adv fuel u n N text p z v m w r w', reachable adv w -> kind_at w N = Some KNet ->
  convert_path text = Some p -> genuine_path w p ->
  m = MConvertFor text z (EOA n) \/ m = MConvert text z /\ n = u ->
  run_tx adv fuel (TCall u N v m) w = Ok (r, w') ->
  exists L x, last p = Some L /\ r = RInt x /\ 0 < z <= x /\
    if icx_registered w N L then icx w' (EOA n) = icx w (EOA n) - (if decide (n = u) then v else 0) + x
    else balance_of w' L (EOA n) = balance_of w L (EOA n) + x.
Proof.
  intros adv fuel u n N text p z v m w r w' Hr HN Hp HG Hm H. cbn [run_tx] in H.
  eapply coin_trade in H as (T & L & x & -> & _ & HL & _ & HTr & HTk & _ & Hz & _ & Hicx & _ & Hb & _ & _ & Hc); [|done..].
  exists L, x. split; [done|]. split; [done|]. split; [done|]. pose proof (user_no_converter adv w p n Hr HG) as Hn.
  assert (forall X k, kind_at w X = Some k -> EOA n <> X) as HU.
  { intros X k K <-. pose proof (no_eoa_reachable _ _ Hr n) as Hn'. unfold kind_at in K. by rewrite Hn' in K. }
  unfold to_tokens, to_coins in *. destruct (icx_registered w N L) eqn:EL.
  - rewrite Hc. unfold at_. rewrite (decide_True (P := EOA n = EOA n)) by done. rewrite (decide_False (P := EOA n = L)) by (eapply HU; by apply Hicx).
    rewrite (decide_False (P := EOA n = T)) by (by eapply HU). destruct (decide (EOA n = EOA u)) as [E|E], (decide (n = u)); try congruence; lia.
  - rewrite (Hb L (EOA n) Hn). unfold credit. rewrite !(decide_True (P := L = L)) by done. rewrite (decide_True (P := EOA n = EOA n)) by done. lia.
Qed.
Print Assumptions C47_coin_conversion.
(* C47 and C49 for every beneficiary a, contracts included: the conversion runs up to a state w1 in which the network holds x of
   the last token more than before, and only the sender and the converters on the path have been touched besides; from there the
   network's one remaining call hands exactly x of that token (as coins if it is a registered ICX token) to a.
   What a does with it inside that call is its own business. *)
Lemma executed_is_quoted adv w N p text v x : reachable adv w -> kind_at w N = Some KNet -> genuine_path w p -> real_path w p -> convert_path text = Some p ->
  valid_path p = true -> 0 < v -> converted w p v = Some x -> replies adv w N (MGetExpectedReturnByPath text v) (RInt x).
Proof.
  intros Hr HN HG HR Hp Hv Hvv Hx.
  exists 3%nat. intros [|[|[|f]]] ro s Hf; [lia..|]. eapply expected_return_iff; [done..|]. split; [split; [done|lia]|].
  exists x. split; [|done]. rewrite <- real_converted; [done..|]. apply C43_valid_paths in Hv as [[? _] _]. done.
Qed.
Theorem C47_any_beneficiary_token : forall adv fuel u a T N p z v d w r w', reachable adv w -> kind_at w N = Some KNet -> is_token w T -> genuine_path w p ->
  asks d (EOA u) p z a ->
  run_tx adv fuel (TCall u T 0 (MTransfer N v (Some d))) w = Ok (r, w') ->
  exists L x w1 w2, last p = Some L /\ 0 < z <= x /\
    (forall X b, b ∉ converters w p -> balance_of w1 X b = balance_of w X b + credit T (EOA u) (- v) X b + credit L N x X b) /\
    (forall b, icx w1 b = icx w b) /\
    (exists f1 r1, exec adv f1 false N L 0 (if icx_registered w N L then MWithdrawTo x a else MTransfer a x (Some data_none)) w1 = Ok (r1, w2)) /\
    (* the only thing after it is the Transfer event of the first token *)
    w' = wlog T (EvTransfer (EOA u) N v d) w2 /\
    (* without virtual balances x is what the network quotes *)
    (forall text, real_path w p -> convert_path text = Some p -> replies adv w N (MGetExpectedReturnByPath text v) (RInt x)).
Proof.
  intros adv fuel u a T N p z v d w r w' Hr HN HT HG Ha H. cbn [run_tx] in H.
  eapply token_any in H as (L & x & w1 & w2 & _ & HL & Hv & Hx & Hz & Hvv & [Hi _] & Hb & HP & ->); [|done..].
  exists L, x, w1, w2. split; [done|]. split; [done|]. split; [done|]. split; [intros b; unfold icx; by rewrite Hi|]. split; [exact HP|]. split; [done|].
  intros text HR Hp. by apply (executed_is_quoted adv w N p text v x Hr HN HG HR Hp Hv ltac:(lia) Hx).
Qed.
Print Assumptions C47_any_beneficiary_token.
Theorem C47_any_beneficiary_coins : forall adv fuel u a N text p z v w r w', reachable adv w -> kind_at w N = Some KNet ->
  convert_path text = Some p -> genuine_path w p ->
  run_tx adv fuel (TCall u N v (MConvertFor text z a)) w = Ok (r, w') ->
  exists T L x w1, head p = Some T /\ last p = Some L /\ r = RInt x /\ 0 < z <= x /\
    (forall X b, b ∉ converters w p -> balance_of w1 X b = balance_of w X b + credit L N x X b) /\
    (forall b, icx w1 b = icx w b - at_ (EOA u) v b + at_ T v b) /\
    (exists f1 r1, exec adv f1 false N L 0 (if icx_registered w N L then MWithdrawTo x a else MTransfer a x (Some data_none)) w1 = Ok (r1, w')) /\
    (real_path w p -> replies adv w N (MGetExpectedReturnByPath text v) (RInt x)).
Proof.
  intros adv fuel u a N text p z v w r w' Hr HN Hp HG H. cbn [run_tx] in H.
  eapply coin_any in H as (T & L & x & w1 & -> & HT & HL & Hv & Hx & Hz & Hvv & _ & Hb & Hi & HP); [|done..].
  exists T, L, x, w1. split; [done|]. split; [done|]. split; [done|]. split; [done|]. split; [done|]. split; [done|]. split; [exact HP|].
  intros HR. by apply (executed_is_quoted adv w N p text v x Hr HN HG HR Hp Hv ltac:(lia) Hx).
Qed.
Print Assumptions C47_any_beneficiary_coins.
Definition demo_path : list addr := [irct; flexA; icxt].
Lemma demo_path_ok : Forall addr_ok demo_path.
Proof. unfold demo_path. repeat constructor. Qed.
Example C47_example : is_token ready irct /\ genuine_path ready demo_path /\ real_path ready demo_path /\
  asks (pay_for demo_path 5 bob) alice demo_path 5 bob /\
  match run_tx quiet 20 (call 2 irct (MTransfer network 1000 (Some (pay_for demo_path 5 bob)))) ready with
  | Ok (_, w') => icx ready bob < icx w' bob /\ balance_of w' irct alice = balance_of ready irct alice - 1000
  | Err _ => False
  end.
Proof.
  split; [by left; vm_compute|]. split; [|split; [|split]].
  - unfold demo_path. cbn [genuine_path]. split; [by left; vm_compute|]. split; [by vm_compute|]. split; [by vm_compute|]. split; [by vm_compute|]. right; left; by vm_compute.
  - unfold demo_path. cbn [real_path]. by vm_compute.
  - apply asks_pay_for; [done|apply demo_path_ok|done].
  - vm_compute. done.
Qed.
(* a contract as beneficiary: the coins go to the ICX token, whose fallback mints tokens for the caller *)
Example C47_any_example : asks (pay_for demo_path 5 icxt) alice demo_path 5 icxt /\
  match run_tx quiet 20 (call 2 irct (MTransfer network 1000 (Some (pay_for demo_path 5 icxt)))) ready with Ok _ => True | Err _ => False end.
Proof. split; [apply asks_pay_for; [done|apply demo_path_ok|done]|]. vm_compute. done. Qed.

(* C48 (refuted): the network does not check the amount itself.  A path through a flexible token that is not owned by
   a genuine converter, here by the user bob, delivers nothing although the request demands a minimum. *)
Definition trap := SCORE 20.
Definition trapped : world := default world0 (play quiet 20 [TDeploy 3 20 (IFlex "Trap" "TRP" 0 6)] ready).
Lemma trapped_reachable : reachable quiet trapped.
Proof. eapply play_reachable; [apply ready_reachable|]. apply play_default. by vm_compute. Qed.
Theorem C48_minimum_not_enforced_by_network : reachable quiet trapped /\ kind_at trapped network = Some KNet /\
  exists r w', run_tx quiet 20 (call 2 irct (MTransfer network 1000 (Some (pay_path [irct; trap; flexA] 500)))) trapped = Ok (r, w') /\
  asks (pay_path [irct; trap; flexA] 500) alice [irct; trap; flexA] 500 alice /\
  balance_of w' flexA alice = balance_of trapped flexA alice /\
  balance_of w' irct alice = balance_of trapped irct alice - 1000 /\ balance_of w' irct bob = balance_of trapped irct bob + 1000.
Proof.
  split; [apply trapped_reachable|]. split; [by vm_compute|].
  assert (match run_tx quiet 20 (call 2 irct (MTransfer network 1000 (Some (pay_path [irct; trap; flexA] 500)))) trapped with
    | Ok (_, w') => (balance_of w' flexA alice =? balance_of trapped flexA alice) && (balance_of w' irct alice =? balance_of trapped irct alice - 1000) &&
        (balance_of w' irct bob =? balance_of trapped irct bob + 1000)
    | Err _ => false end = true) as H by (by vm_compute).
  destruct (run_tx _ _ _ _) as [[r w']|]; [|done]. apply andb_prop in H as [[H1 H2]%andb_prop H3]. apply Z.eqb_eq in H1, H2, H3.
  exists r, w'. split; [done|]. split; [apply asks_pay; [done|repeat constructor]|]. exact (conj H1 (conj H2 H3)).
Qed.
Print Assumptions C48_minimum_not_enforced_by_network.
(* in every state: through a flexible token owned by a user b, any positive minimum z is accepted, b gets what was sent
   and the beneficiary n nothing; no other balance changes *)
Theorem C48_any_minimum_accepted : forall adv fuel u n b T N G L z v d w, reachable adv w -> kind_at w N = Some KNet -> is_token w T -> is_token w L ->
  kind_at w G = Some KFlex -> owner_of w G = EOA b -> L <> T -> icx_registered w N L = false -> movable w T -> movable w L ->
  asks d (EOA u) [T; G; L] z (EOA n) -> 0 < z -> 0 <= v <= balance_of w T (EOA u) ->
  exists r w', run_tx adv (4 + fuel) (TCall u T 0 (MTransfer N v (Some d))) w = Ok (r, w') /\
    (forall X a, balance_of w' X a = balance_of w X a + credit T (EOA u) (- v) X a + credit T (EOA b) v X a) /\
    (forall a, icx w' a = icx w a).
Proof. intros adv fuel. apply trap_succeeds. Qed.
Print Assumptions C48_any_minimum_accepted.
Example C48_any_example : kind_at trapped network = Some KNet /\ is_token trapped irct /\ is_token trapped flexA /\ kind_at trapped trap = Some KFlex /\
  owner_of trapped trap = bob /\ icx_registered trapped network flexA = false /\ transferable trapped flexA = true /\ 1000 <= balance_of trapped irct alice.
Proof. split; [by vm_compute|]. split; [by left; vm_compute|]. split; [by right; right; vm_compute|]. vm_compute. done. Qed.

(* C49: the quote is what is executed (no virtual balances), and nothing stays behind *)
Theorem C49_token_conversion : forall adv fuel u n T N p text z v d w r w', reachable adv w -> kind_at w N = Some KNet -> is_token w T ->
  genuine_path w p -> real_path w p -> convert_path text = Some p ->
  asks d (EOA u) p z (EOA n) ->
  run_tx adv fuel (TCall u T 0 (MTransfer N v (Some d))) w = Ok (r, w') ->
  exists L x, last p = Some L /\ replies adv w N (MGetExpectedReturnByPath text v) (RInt x) /\
  (* the sender pays v of the first token, the beneficiary gets x of the last, as coins if it is a registered ICX token;
     among all accounts that are not converters on the path only these two change, in any token and in coins *)
  (forall X a, a ∉ converters w p -> balance_of w' X a = balance_of w X a + credit T (EOA u) (- v) X a + credit L (EOA n) (to_tokens w N L x) X a) /\
  (forall a, icx w' a = icx w a - at_ L (to_coins w N L x) a + at_ (EOA n) (to_coins w N L x) a) /\
  (* nothing is left in the network *)
  (forall X, balance_of w' X N = balance_of w X N) /\ icx w' N = icx w N.
Proof.
  intros adv fuel u n T N p text z v d w r w' Hr HN HT HG HR Hp Ha H. pose proof H as H'. cbn [run_tx] in H.
  eapply token_trade in H as (L & x & Hhd & HL & Hv & Hx & Hz & Hvv & Hicx & _ & Hb & _ & _ & Hc); [|done..].
  exists L, x. split; [done|]. split; [|split; [done|split; [done|split]]].
  - exists 3%nat. intros [|[|[|f]]] ro s Hf; [lia..|]. eapply expected_return_iff; [done..|]. split; [split; [done|lia]|].
    exists x. split; [|done]. rewrite <- real_converted; [done..|]. apply C43_valid_paths in Hv as [[? _] _]. done.
  - intros X. rewrite Hb by (by eapply network_no_converter). unfold credit.
    assert (exists k, N = SCORE k) as [k ->].
    { destruct (kind_contract _ _ _ _ Hr HN) as [HN1 _]. destruct N; [done|by eexists]. }
    repeat (case_decide; try done); lia.
  - eapply C46_coins; [|done|exact H']. by destruct (kind_contract _ _ _ _ Hr HN).
Qed.
Print Assumptions C49_token_conversion.
Theorem C49_coin_conversion : forall adv fuel u n N text p z v m w r w', reachable adv w -> kind_at w N = Some KNet ->
  convert_path text = Some p -> genuine_path w p -> real_path w p ->
  m = MConvertFor text z (EOA n) \/ m = MConvert text z /\ n = u ->
  run_tx adv fuel (TCall u N v m) w = Ok (r, w') ->
  exists T L x, head p = Some T /\ last p = Some L /\ replies adv w N (MGetExpectedReturnByPath text v) (RInt x) /\ r = RInt x /\
  (forall X a, a ∉ converters w p -> balance_of w' X a = balance_of w X a + credit L (EOA n) (to_tokens w N L x) X a) /\
  (forall a, icx w' a = icx w a - at_ (EOA u) v a + at_ T v a - at_ L (to_coins w N L x) a + at_ (EOA n) (to_coins w N L x) a) /\
  (forall X, balance_of w' X N = balance_of w X N) /\ icx w' N = icx w N.
Proof.
  intros adv fuel u n N text p z v m w r w' Hr HN Hp HG HR Hm H. pose proof H as H'. cbn [run_tx] in H.
  eapply coin_trade in H as (T & L & x & -> & Hhd & HL & Hv & HTr & HTk & Hx & Hz & Hvv & Hicx & _ & Hb & _ & _ & Hc); [|done..].
  exists T, L, x. split; [done|]. split; [done|]. split; [|split; [done|split; [done|split; [done|split]]]].
  - exists 3%nat. intros [|[|[|f]]] ro s Hf; [lia..|]. eapply expected_return_iff; [done..|]. split; [split; [done|lia]|].
    exists x. split; [|done]. rewrite <- real_converted; [done..|]. apply C43_valid_paths in Hv as [[? _] _]. done.
  - intros X. rewrite Hb by (by eapply network_no_converter). unfold credit.
    assert (exists k, N = SCORE k) as [k ->].
    { destruct (kind_contract _ _ _ _ Hr HN) as [HN1 _]. destruct N; [done|by eexists]. }
    repeat (case_decide; try done); lia.
  - eapply C46_coins; [|done|exact H']. by destruct (kind_contract _ _ _ _ Hr HN).
Qed.
Print Assumptions C49_coin_conversion.
(* the hypotheses are met by the conversion of C47_example; here the amounts are compared *)
Example C49_example :
  match run_tx quiet 20 (call 2 irct (MTransfer network 1000 (Some (pay_for demo_path 5 bob)))) ready,
        exec quiet 20 true bob network 0 (MGetExpectedReturnByPath (path_text demo_path) 1000) ready with
  | Ok (_, w'), Ok (RInt x, _) => 0 < x /\ icx w' bob = icx ready bob + x
  | _, _ => False
  end.
Proof. vm_compute. done. Qed.

(* C50: read-only methods and calls in a read-only context leave the whole state unchanged *)
Theorem C50_queries : forall adv fuel ro s t v m w r w', is_contract t = true -> (exists k, kind_at w t = Some k /\ k <> KAdv) ->
  is_readonly m = true -> exec adv fuel ro s t v m w = Ok (r, w') -> w' = w.
Proof. intros adv fuel ro s t v m w r w' Ht (k & Hk & Hne) Hm H. apply kind_at_Some in Hk as (sc & Hsc & K). eapply exec_view; [exact Hsc|by rewrite K|done..]. Qed.
Print Assumptions C50_queries.
Theorem C50_read_only_context : forall adv fuel s t v m w r w', exec adv fuel true s t v m w = Ok (r, w') -> w' = w.
Proof. intros. by eapply exec_readonly. Qed.
Print Assumptions C50_read_only_context.

(* C51 *)
Theorem C51_convert : forall adv fuel ro s N v m text z for_ w, is_contract N = true -> kind_at w N = Some KNet ->
  (m = MConvertFor text z for_ \/ m = MConvert text z /\ for_ = s) ->
  succeeds (exec adv fuel ro s N v m) w ->
  exists p T, convert_path text = Some p /\ head p = Some T /\ icx_registered w N T = true /\ path_shape p /\ 0 < z /\ for_ <> zero_score /\ for_ <> N.
Proof.
  intros adv fuel ro s N v m text z for_ w HN1 HN2 Hm (r & w' & H).
  assert (convert_target m s = Some (text, z, for_)) as HM by (destruct Hm as [->|[-> ->]]; reflexivity).
  eapply exec_convert_inv in H as (p0 & rest & H1 & H2 & H3 & H4 & H5 & H6); [|done|done|exact HM].
  exists (p0 :: rest), p0. rewrite <- C43_valid_paths. done.
Qed.
Print Assumptions C51_convert.
Example C51_example :
  bool_decide (is_Some (play quiet 20 [TCall 2 network (10 ^ 18) (MConvert (path_text [icxt; flexA; irct]) 1)] ready)) = true /\
  play quiet 20 [TCall 2 network (10 ^ 18) (MConvert (path_text [irct; flexA; icxt]) 1)] ready = None /\
  play quiet 20 [TCall 2 network (10 ^ 18) (MConvert (path_text [icxt; flexA; irct]) 0)] ready = None /\
  play quiet 20 [TCall 2 network (10 ^ 18) (MConvertFor (path_text [icxt; flexA; irct]) 1 network)] ready = None.
Proof. vm_compute. done. Qed.

(* C52 (refuted): tokens sent with the marker for conversion results stay in the network: for every sender and amount *)
Theorem C52_marked_tokens_stay : forall adv fuel s T N v w, reachable adv w -> token_at w T -> kind_at w N = Some KNet -> movable w T ->
  0 <= v <= balance_of w T s -> s <> N ->
  exists w', exec adv (S (S fuel)) false s T 0 (MTransfer N v (Some data_result)) w = Ok (RNone, w') /\ balance_of w' T N = balance_of w T N + v /\
    balance_of w' T s = balance_of w T s - v.
Proof.
  intros adv fuel s T N v w Hr HT HN Hm Hv Hs. destruct (kind_contract _ _ _ _ Hr HN) as [HN1 _].
  assert (N <> T) as HNT. { intros ->. destruct HT as [_ [K|[K|K]]]; congruence. }
  destruct (pay_ok adv fuel s T N v w HT HN1 HN HNT Hv Hm) as [w' H]. exists w'. split; [done|].
  apply pay_inv in H as (_ & _ & E); [|done..]. rewrite !(eff_bal _ _ _ _ _ _ E). rewrite (credit_ne T s _ T N) by auto. rewrite (credit_ne T N _ T s) by auto. rewrite !credit_eq. lia.
Qed.
Print Assumptions C52_marked_tokens_stay.
(* every other transfer to the network is a conversion request (C45); along genuine contracts nothing is left behind *)
Theorem C52_requests_leave_nothing : forall adv fuel u n T N p z v d w r w', reachable adv w -> kind_at w N = Some KNet -> is_token w T -> genuine_path w p ->
  asks d (EOA u) p z (EOA n) -> run_tx adv fuel (TCall u T 0 (MTransfer N v (Some d))) w = Ok (r, w') ->
  forall X, balance_of w' X N = balance_of w X N.
Proof.
  intros adv fuel u n T N p z v d w r w' Hr HN HT HG Ha H X. cbn [run_tx] in H.
  eapply token_trade in H as (L & x & _ & _ & _ & _ & _ & _ & _ & _ & Hb & _); [|done..].
  rewrite Hb by (by eapply network_no_converter). unfold credit.
  assert (exists k, N = SCORE k) as [k ->].
  { destruct (kind_contract _ _ _ _ Hr HN) as [HN1 _]. destruct N; [done|by eexists]. }
  repeat (case_decide; try done); lia.
Qed.
Print Assumptions C52_requests_leave_nothing.
Example C52_example : token_at ready irct /\ kind_at ready network = Some KNet /\ movable ready irct /\ balance_of ready irct alice = 10 ^ 9.
Proof. split; [split; [done|by left; vm_compute]|]. split; [by vm_compute|]. split; [|by vm_compute]. intros K. exfalso. by vm_compute in K. Qed.

(* C64: which conversions succeed.  (passable, payable: ReadySpec.v) *)
Theorem C64_token_conversion : forall adv fuel u n T N p z v d w, reachable adv w -> kind_at w N = Some KNet -> is_token w T -> genuine_path w p ->
  asks d (EOA u) p z (EOA n) -> (6 <= fuel)%nat ->
  succeeds (run_tx adv fuel (TCall u T 0 (MTransfer N v (Some d)))) w <->
  path_shape p /\ 0 < z /\ 0 < v <= balance_of w T (EOA u) /\
  exists rest L, p = T :: rest /\ last p = Some L /\ passable w N T rest v z /\ payable w N L.
Proof.
  intros adv fuel u n T N p z v d w Hr HN HT HG Ha Hf. cbn [run_tx]. destruct (Nat.le_exists_sub _ _ Hf) as (f & -> & _).
  replace (f + 6)%nat with (S (S (S (S (S (S f)))))) by lia. rewrite (token_ready adv f u n T N p z v d w Hr HN HT HG Ha), <- C43_valid_paths. split.
  - intros (rest & L & H1 & H2 & H3 & H4 & H5 & H6 & H7). do 3 (split; [done|]). by exists rest, L.
  - intros (H3 & H4 & H5 & rest & L & H1 & H2 & H6 & H7). by exists rest, L.
Qed.
Print Assumptions C64_token_conversion.
Theorem C64_coin_conversion : forall adv fuel u n N text p z v m w, reachable adv w -> kind_at w N = Some KNet ->
  convert_path text = Some p -> genuine_path w p -> m = MConvertFor text z (EOA n) \/ m = MConvert text z /\ n = u -> (5 <= fuel)%nat ->
  succeeds (run_tx adv fuel (TCall u N v m)) w <->
  path_shape p /\ 0 < z /\ 0 < v <= icx w (EOA u) /\
  exists T rest L, p = T :: rest /\ last p = Some L /\ icx_registered w N T = true /\ kind_at w T = Some KIcx /\
    passable w N T rest v z /\ payable w N L.
Proof.
  intros adv fuel u n N text p z v m w Hr HN Hp HG Hm Hf. cbn [run_tx]. destruct (Nat.le_exists_sub _ _ Hf) as (f & -> & _).
  replace (f + 5)%nat with (S (S (S (S (S f))))) by lia. rewrite (coin_ready adv f u n N text z v m w p Hr HN Hp HG Hm), <- C43_valid_paths. split.
  - intros (T & rest & L & H1 & H2 & H3 & H4 & H5 & H6 & H7 & H8 & H9). do 3 (split; [done|]). by exists T, rest, L.
  - intros (H3 & H6 & H7 & T & rest & L & H1 & H2 & H4 & H5 & H8 & H9). by exists T, rest, L.
Qed.
Print Assumptions C64_coin_conversion.
(* a conversion that succeeds would also succeed for any other beneficiary and any lower (positive) minimum return *)
Theorem C64_lower_minimum : forall adv fuel u n n' T N p z z' v d d' w, reachable adv w -> kind_at w N = Some KNet -> is_token w T -> genuine_path w p ->
  asks d (EOA u) p z (EOA n) -> asks d' (EOA u) p z' (EOA n') -> 0 < z' <= z -> (6 <= fuel)%nat ->
  succeeds (run_tx adv fuel (TCall u T 0 (MTransfer N v (Some d)))) w -> succeeds (run_tx adv fuel (TCall u T 0 (MTransfer N v (Some d')))) w.
Proof.
  intros adv fuel u n n' T N p z z' v d d' w Hr HN HT HG Ha Ha' Hz Hf H.
  apply (proj1 (C64_token_conversion adv fuel u n T N p z v d w Hr HN HT HG Ha Hf)) in H as (H1 & H2 & H3 & rest & L & H4 & H5 & H6 & H7).
  apply (C64_token_conversion adv fuel u n' T N p z' v d' w Hr HN HT HG Ha' Hf). split; [done|]. split; [lia|]. split; [done|].
  exists rest, L. do 2 (split; [done|]). split; [|done]. clear -H6 Hz. revert T v H6. induction rest as [|a|a b rest IH] using list_ind2; [done|done|].
  intros T v. cbn [passable]. cbv zeta. intros (A & B & C & D & x & E & F & G & H). do 4 (split; [done|]). exists x. split; [done|]. split; [done|].
  split; [destruct rest; lia|]. by apply IH.
Qed.
Print Assumptions C64_lower_minimum.
Example C64_example : reachable quiet ready /\ kind_at ready network = Some KNet /\ is_token ready irct /\ genuine_path ready demo_path /\
  asks (pay_for demo_path 5 bob) alice demo_path 5 bob /\ passable ready network irct [flexA; icxt] 1000 5 /\ payable ready network icxt /\
  (* with a minimum that is too high the same conversion fails *)
  ~ passable ready network irct [flexA; icxt] 1000 (10 ^ 30).
Proof.
  destruct C47_example as (H1 & H2 & _ & H3 & _). assert (reachable quiet ready) as Hr by apply ready_reachable.
  assert (kind_at ready network = Some KNet) as HN by (by vm_compute).
  do 5 (split; [done|]). pose proof (C64_token_conversion quiet 6 2 3 irct network demo_path) as HC.
  assert (exists rest L, demo_path = irct :: rest /\ last demo_path = Some L /\ passable ready network irct rest 1000 5 /\ payable ready network L) as (rest & L & E1 & E2 & H4 & H5).
  { eapply (HC 5 1000 (pay_for demo_path 5 bob) ready Hr HN H1 H2 H3 (Nat.le_refl _)). 
    assert (match run_tx quiet 6 (TCall 2 irct 0 (MTransfer network 1000 (Some (pay_for demo_path 5 bob)))) ready with Ok _ => true | Err _ => false end = true) as HS by (by vm_compute).
    destruct (run_tx quiet 6 _ ready) as [[r w']|] eqn:E; [|done]. by exists r, w'. }
  injection E1 as <-. injection E2 as <-. split; [done|]. split; [done|].
  intros HP. assert (asks (pay_for demo_path (10 ^ 30) bob) alice demo_path (10 ^ 30) bob) as H3' by (apply asks_pay_for; [done|apply demo_path_ok|done]).
  assert (succeeds (run_tx quiet 6 (TCall 2 irct 0 (MTransfer network 1000 (Some (pay_for demo_path (10 ^ 30) bob))))) ready) as (r & w' & H).
  { pose proof (HC (10 ^ 30) 1000 (pay_for demo_path (10 ^ 30) bob) ready Hr HN H1 H2 H3' (Nat.le_refl _)) as [_ HC'].
    apply HC'. clear HC HC'. split; [apply C43_valid_paths; by vm_compute|]. split; [reflexivity|]. split; [split; [reflexivity|by vm_compute]|].
    exists [flexA; icxt], icxt. split; [reflexivity|]. split; [reflexivity|]. split; [exact HP|exact H5]. }
  by vm_compute in H.
Qed.
