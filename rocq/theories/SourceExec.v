(* Message calls and transactions: the contracts as written and the model of World.v have the same runs. *)
From Coq Require Import String ZArith Lia.
From stdpp Require Import base countable list numbers strings gmap.
From Verif Require Import Res PySyntax PySource Codec World WorldInv PySemantics SourceBase SourceSteps SourceTokens SourceConverter SourceFallback SourceNetwork.
Local Open Scope string_scope.
Local Open Scope list_scope.
Local Open Scope Z_scope.

(* decorators *)
Definition all_kinds : list kind := [KIrc; KIcx; KFlex; KConv; KNet; KReg].
Lemma decorators kd k m : class_of_kind kd = Some k -> may_call k m = true -> may_pay k m = is_payable kd m /\ only_reads k m = is_readonly m.
Proof.
  intros E. destruct kd; try discriminate E; injection E as <-; each_message m; intros H;
  first [vm_compute in H; discriminate H | clear H; split; vm_compute; reflexivity].
Qed.
(* a call that does not change the storage of the caller's frame away *)
Lemma keeps_exec adv f c : keeps (World.exec adv f) c.
Proof.
  intros to v m w sc r w' Hsc E. destruct (ident_exec _ _ _ _ _ _ _ _ _ _ E _ _ Hsc) as (sc' & H & I). exists sc'. split; [exact H|apply I].
Qed.
Lemma handler_calls call1 call2 k c m w :
  (forall ro s t v m w, of_res (call1 ro s t v m w) = of_res (call2 ro s t v m w)) -> handler_src call1 k c m w = handler_src call2 k c m w.
Proof. intros H. unfold handler_src. destruct (may_call k m); [|done]. destruct (msg_call m) as [[x vs]|]; [|done]. by apply denote_calls. Qed.
Lemma handler_same adv f kd k c m w sc : class_of_kind kd = Some k -> w_scores w !! c_self c = Some sc ->
  handler_src (World.exec adv f) k c m w = of_res (honest_handler (World.exec adv f) kd c m w).
Proof.
  intros E H. rewrite (at_same _ _ _ H). destruct kd; try discriminate E; injection E as <-.
  - apply irc_src, keeps_exec.
  - apply icx_src, keeps_exec.
  - apply flex_src, keeps_exec.
  - apply conv_src, keeps_exec.
  - apply net_src, keeps_exec.
  - apply reg_src with (call := World.exec adv f), keeps_exec.
Qed.
Lemma refused call k c m w : may_call k m = false -> handler_src call k c m w = Failed.
Proof. intros H. unfold handler_src. by rewrite H. Qed.

Lemma exec_same adv fuel : forall ro s t v m w, exec_src adv fuel ro s t v m w = of_res (World.exec adv fuel ro s t v m w).
Proof.
  induction fuel as [|f IH]; intros ro s t v m w; [reflexivity|].
  assert (Hsub : forall ro s t v m w, of_res (to_M (exec_src adv f ro s t v m) w) = of_res (World.exec adv f ro s t v m w)).
  { intros. unfold to_M. rewrite IH. by destruct (World.exec adv f ro0 s0 t0 v0 m0 w0). }
  cbn [exec_src World.exec]. unfold bind at 1, require at 1. destruct (ro && negb (v =? 0)); [reflexivity|]. cbn [negb]. unfold ret at 1.
  unfold bind at 1. destruct (move_icx s t v w) as [[[] w1]|]; [|reflexivity]. cbn [of_res andthen snd].
  destruct t as [n|n]; [by destruct m|].
  unfold bind at 1, get_score. destruct (w_scores w1 !! SCORE n) as [sc|] eqn:Hsc; [|reflexivity].
  destruct (class_of_kind (s_kind sc)) as [k|] eqn:Hk.
  2: { destruct (s_kind sc); try discriminate Hk. by apply run_prog_calls. }
  assert (E : (if negb (may_pay k m) && negb (v =? 0) then Failed
     else if ro && negb (only_reads k m) then Failed
     else handler_src (fun ro0 s0 t v0 m0 => to_M (exec_src adv f ro0 s0 t v0 m0)) k (Ctx (SCORE n) s v (ro || only_reads k m)) m w1) =
    of_res (bind (require (is_payable (s_kind sc) m || (v =? 0)) "not payable") (fun _ =>
      bind (require (negb (ro && negb (is_readonly m))) "read-only") (fun _ =>
      honest_handler (World.exec adv f) (s_kind sc) (Ctx (SCORE n) s v (ro || is_readonly m)) m)) w1)).
  2: { rewrite E. destruct (s_kind sc); try discriminate Hk; reflexivity. }
  destruct (may_call k m) eqn:Hm.
  - destruct (decorators _ _ _ Hk Hm) as [-> ->]. rewrite (handler_calls _ (World.exec adv f)) by exact Hsub.
    rewrite (handler_same adv f _ _ _ _ _ sc Hk) by exact Hsc.
    unfold bind, require, ret, fail. destruct (is_payable (s_kind sc) m), (v =? 0), (ro && negb (is_readonly m)); reflexivity.
  - rewrite refused by exact Hm.
    pose proof (handler_same adv f _ _ (Ctx (SCORE n) s v (ro || is_readonly m)) m _ sc Hk Hsc) as H. rewrite refused in H by exact Hm.
    unfold bind, require, ret, fail. destruct (is_payable (s_kind sc) m || (v =? 0)), (ro && negb (is_readonly m)); cbn [negb]; try rewrite <- H;
      destruct (negb (may_pay k m) && negb (v =? 0)), (ro && negb (only_reads k m)); reflexivity.
Qed.

(* deployment *)
Lemma classes_complete kd k : class_of_kind kd = Some k -> instantiable k = true.
Proof. destruct kd; intros E; try discriminate E; injection E as <-; vm_compute; reflexivity. Qed.
Lemma install_same adv f c i k w sc : class_of_kind (install_kind i) = Some k ->
  agrees c (fun _ : unit => VNone) (denote (World.exec adv f) c (method_src k c "on_install" (install_args i)) (at_ c w sc))
    (run_install adv f c i (at_ c w sc)).
Proof.
  pose proof (keeps_exec adv f c) as K.
  intros E. destruct i; try discriminate E; injection E as <-; cbn [install_args run_install].
  all: try match goal with cn : option addr |- _ => destruct cn end.
  all: generalize dependent (World.exec adv f); intros call K.
  1: whole K.
  1: whole K.
  1: whole K.
  3: whole K.
  3: whole K.
  all: whole K.
Qed.
Lemma tx_same adv fuel t w : run_tx_src adv fuel t w = of_res (run_tx adv fuel t w).
Proof.
  destruct t as [n to v m|n a i]; [apply exec_same|]. cbn [run_tx_src run_tx].
  destruct (bool_decide (a = 0%N)); [reflexivity|]. destruct (w_scores w !! SCORE a) eqn:Ha; [reflexivity|].
  unfold bind at 1, put_score. unfold bind.
  destruct (class_of_kind (install_kind i)) as [k|] eqn:Hk; [|by destruct i].
  rewrite (denote_calls _ (World.exec adv fuel)).
  2: { intros. unfold to_M. rewrite exec_same. by destruct (World.exec adv fuel ro s t v m w0). }
  rewrite (classes_complete _ _ Hk). cbn [negb].
  set (c := Ctx (SCORE a) (EOA n) 0 false).
  change (World (w_icx w) (<[SCORE a := World.blank (install_kind i)]> (w_scores w)) (w_log w)) with (at_ c w (World.blank (install_kind i))).
  destruct (install_same adv fuel c i k w (World.blank (install_kind i)) Hk) as [[-> [e ->]]|([] & w1 & sc & -> & ->)]; reflexivity.
Qed.
Lemma apply_same adv fuel t w : apply_tx_src adv fuel t w = apply_tx adv fuel t w.
Proof. unfold apply_tx_src, apply_tx. rewrite tx_same. by destruct (run_tx adv fuel t w) as [[? ?]|]. Qed.
Lemma reachable_same adv w : reachable_src adv w <-> reachable adv w.
Proof.
  split; intros R; induction R as [w G|w fuel t R IH]; [by apply reach_genesis| |by apply src_genesis|].
  - rewrite apply_same. by apply reach_tx.
  - rewrite <- apply_same. by apply src_tx.
Qed.

(* updates *)
Lemma on_update_same call c k kd w : class_of_kind kd = Some k -> denote call c (method_src k c "on_update" []) w = Done (VNone, w).
Proof.
  intros E. destruct kd; try discriminate E; injection E as <-.
  all: tree; reflexivity.
Qed.
Lemma update_same adv fuel n a w sc : w_scores w !! SCORE a = Some sc -> s_kind sc <> KAdv -> run_update_src adv fuel n a w = Done (RNone, w).
Proof.
  intros H Hk. unfold run_update_src. rewrite H. destruct (class_of_kind (s_kind sc)) as [k|] eqn:E; [|by destruct (s_kind sc)].
  rewrite (classes_complete _ _ E). cbn [negb]. by rewrite (on_update_same _ _ _ _ _ E).
Qed.
