(* C79: the message calls of the genuine contracts never nest deeper than six. *)
From Coq Require Import String Ascii ZArith Lia.
From stdpp Require Import base countable list numbers strings gmap.
From Verif Require Import Res Codec World WorldSpec Scenario WorldDepth Properties_Network.
Local Open Scope string_scope.
Local Open Scope list_scope.
Local Open Scope Z_scope.

(* [run_tx adv limit]: the service executes a transaction, and a message call that would be nested deeper than [limit] fails
   (the first call of the transaction is at depth one).  Without unknown contracts every limit of six or more gives the
   same outcome of every transaction in every state: success or failure, returned value, and final state. *)
Theorem C79_six_frames_suffice : forall adv w t limit,
  (forall a, kind_at w a <> Some KAdv) -> (forall n a, t <> TDeploy n a IAdv) -> (6 <= limit)%nat ->
  run_tx adv limit t w = run_tx adv 6 t w.
Proof.
  intros adv w t limit HN HD Hl. apply (tx_six adv limit t w); [done| |done].
  intros X. destruct t as [|n a []]; try done. by apply (HD n a).
Qed.
Print Assumptions C79_six_frames_suffice.

(* a whole history, with any limits *)
Definition history (adv : adversary) (h : list (nat * tx)) (w : world) : world :=
  fold_left (fun w x => apply_tx adv x.1 x.2 w) h w.
Theorem C79_histories : forall adv h w, genesis w -> (forall x, x ∈ h -> (6 <= x.1)%nat /\ forall n a, x.2 <> TDeploy n a IAdv) ->
  history adv h w = history adv (map (fun x => (6%nat, x.2)) h) w.
Proof.
  intros adv h w Hg Hh. assert (HN : no_unknown w).
  { intros a. unfold kind_at. destruct Hg as (E & _). rewrite E, lookup_empty. done. }
  clear Hg. revert w HN. induction h as [|[f t] h IH]; intros w HN; [done|].
  destruct (Hh (f, t) (elem_of_list_here _ _)) as [Hf HD]. cbn in Hf, HD.
  assert (HD' : ~ deploys_unknown t). { intros X. destruct t as [|n a []]; try done. by apply (HD n a). }
  destruct (tx_six adv f t w HN HD' Hf) as [E P].
  unfold history. cbn [map fold_left fst snd]. fold (history adv h (apply_tx adv f t w)).
  fold (history adv (map (fun x => (6%nat, x.2)) h) (apply_tx adv 6 t w)).
  assert (A : apply_tx adv f t w = apply_tx adv 6 t w) by (unfold apply_tx; by rewrite E). rewrite <- A. apply IH.
  - intros x Hx. apply Hh. by right.
  - unfold apply_tx. destruct (run_tx adv f t w) as [[r w']|e] eqn:X; [by apply (P r)|done].
Qed.
Print Assumptions C79_histories.

(* Six frames are needed: a conversion by a token transfer (token, network, token, converter, token, network) in the
   state [ready], where no unknown contract is deployed, works with six and not with five. *)
Definition six_deep : tx := call 2 irct (MTransfer network 1000 (Some (pay_for demo_path 5 bob))).
Definition works (r : res (rv * world)) : bool := match r with Ok _ => true | Err _ => false end.
Definition all_known (w : world) : bool :=
  forallb (fun x => match s_kind x.2 with KAdv => false | _ => true end) (map_to_list (w_scores w)).
Lemma all_known_spec w : all_known w = true -> forall a, kind_at w a <> Some KAdv.
Proof.
  intros H a. unfold kind_at. destruct (w_scores w !! a) as [sc|] eqn:E; [|done].
  apply elem_of_map_to_list in E. unfold all_known in H. rewrite forallb_forall in H.
  specialize (H (a, sc)). rewrite <- elem_of_list_In in H. specialize (H E). cbn in H. cbn. intros [= X]. by rewrite X in H.
Qed.
Example C79_ready : (forall a, kind_at ready a <> Some KAdv) /\
  works (run_tx quiet 6 six_deep ready) = true /\ works (run_tx quiet 5 six_deep ready) = false.
Proof. split; [apply all_known_spec; vm_compute; reflexivity|]. split; vm_compute; reflexivity. Qed.

(* Unknown contracts must be excluded: one that calls itself and counts sees every limit. *)
Definition counting : adversary := fun a c m =>
  PTry false a 0 (MOther 0) (fun o => PRet (RInt (match o with Some (RInt z) => z + 1 | _ => 0 end))).
Definition alone : world := World ∅ (<[SCORE 9 := blank KAdv]> ∅) [].
Example C79_unknown_contracts_see_the_limit : forall limit,
  run_tx counting (S limit) (TCall 1 (SCORE 9) 0 (MOther 0)) alone = Ok (RInt (Z.of_nat limit), alone).
Proof.
  intros limit. cbn [run_tx]. assert (G : forall s, exec counting (S limit) false s (SCORE 9) 0 (MOther 0) alone = Ok (RInt (Z.of_nat limit), alone)); [|apply G].
  induction limit as [|n IH]; intros s; [reflexivity|].
  change (exec counting (S (S n)) false s (SCORE 9) 0 (MOther 0) alone) with
    (match exec counting (S n) false (SCORE 9) (SCORE 9) 0 (MOther 0) alone with
     | Ok (r, w') => Ok (RInt (match Some r with Some (RInt z) => z + 1 | _ => 0 end), w')
     | Err _ => Ok (RInt 0, alone) end).
  rewrite (IH (SCORE 9)). repeat f_equal. lia.
Qed.
