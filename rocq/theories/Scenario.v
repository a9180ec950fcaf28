(* A concrete history: registry, network, ICX token, two flexible tokens with converters, one IRC token
   as connector; used for the non-vacuity examples and the refutations. *)
From Coq Require Import String Ascii ZArith Lia.
From stdpp Require Import base countable list numbers strings gmap.
From Verif Require Import Res Codec World WorldSpec.
Local Open Scope Z_scope.

(* no unknown contract does anything *)
Definition quiet : adversary := fun _ _ _ => PRet RNone.

Fixpoint play (adv : adversary) (fuel : nat) (h : list tx) (w : world) : option world :=
  match h with
  | [] => Some w
  | t :: h' => match run_tx adv fuel t w with Ok (_, w') => play adv fuel h' w' | Err _ => None end
  end.
Lemma play_reachable adv fuel h w w' : reachable adv w -> play adv fuel h w = Some w' -> reachable adv w'.
Proof.
  revert w. induction h as [|t h IH]; intros w Hr H; cbn in H; [by injection H as ->|].
  destruct (run_tx adv fuel t w) as [[r w1]|] eqn:E; [|done].
  eapply IH; [|done]. pose proof (reach_tx adv w fuel t Hr) as H1. unfold apply_tx in H1. by rewrite E in H1.
Qed.

Definition world0 : world :=
  World (<[EOA 1 := 10 ^ 24]> (<[EOA 2 := 10 ^ 24]> (<[EOA 3 := 10 ^ 24]> ∅))) ∅ [].
Lemma world0_genesis : genesis world0.
Proof.
  repeat split.
  - intros a. unfold icx, world0. cbn [w_icx].
    destruct (decide (a = EOA 1)) as [->|]; [vm_compute; congruence|].
    destruct (decide (a = EOA 2)) as [->|]; [vm_compute; congruence|].
    destruct (decide (a = EOA 3)) as [->|]; [vm_compute; congruence|].
    rewrite !lookup_insert_ne by done. rewrite lookup_empty. done.
Qed.

Definition registry := SCORE 1.
Definition network := SCORE 2.
Definition icxt := SCORE 3.
Definition flexA := SCORE 4.
Definition convA := SCORE 5.
Definition flexB := SCORE 6.
Definition convB := SCORE 7.
Definition irct := SCORE 8.
Definition admin := EOA 1.
Definition alice := EOA 2.
Definition bob := EOA 3.

Definition call (n : N) (to : addr) (m : msg) : tx := TCall n to 0 m.

Definition setup : list tx :=
  [ TDeploy 1 1 IReg;
    TDeploy 1 2 INet;
    call 1 registry (MRegisterAddress "Network" network);
    TDeploy 1 3 IIcx;
    call 1 network (MRegisterIcxToken icxt true);
    TDeploy 1 8 (IIrc "Gold" "GLD" 1000000 6);
    TDeploy 1 4 (IFlex "Alpha" "ALP" 1000000 6);
    TDeploy 1 5 (IConv flexA registry 30000 (Some icxt) 500000);
    call 1 convA (MAddConnector irct 300000 false);
    TDeploy 1 6 (IFlex "Beta" "BET" 500000 6);
    TDeploy 1 7 (IConv flexB registry 30000 (Some flexA) 1000000);
    (* fund the connectors *)
    TCall 1 icxt (2 * 10 ^ 23) MDeposit;
    call 1 icxt (MTransfer convA (10 ^ 23) None);
    call 1 irct (MTransfer convA (10 ^ 11) None);
    call 1 flexA (MTransfer convB (10 ^ 11) None);
    (* activate *)
    call 1 flexA (MTransferOwnership convA);
    call 1 convA MAcceptTokenOwnership;
    call 1 flexB (MTransferOwnership convB);
    call 1 convB MAcceptTokenOwnership;
    call 1 convA (MSetConversionFee 3000);
    (* users get coins *)
    call 1 irct (MTransfer alice (10 ^ 9) None);
    TCall 2 icxt (10 ^ 21) MDeposit ].

Definition ready : world := default world0 (play quiet 20 setup world0).
Lemma play_default adv fuel h w : bool_decide (is_Some (play adv fuel h w)) = true ->
  play adv fuel h w = Some (default world0 (play adv fuel h w)).
Proof. intros H. apply bool_decide_eq_true in H as [w' H]. by rewrite H. Qed.
Lemma ready_played : play quiet 20 setup world0 = Some ready.
Proof. apply play_default. vm_compute. reflexivity. Qed.
Lemma ready_reachable : reachable quiet ready.
Proof. eapply play_reachable; [by constructor; apply world0_genesis|exact ready_played]. Qed.

Definition path_text (p : list addr) : string := join_comma (map addr_to_string p).
