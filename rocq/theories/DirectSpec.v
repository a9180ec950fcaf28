(* Specification for C73 - C75: contracts in the hands of accounts, direct administrative calls. *)
From Coq Require Import String Ascii ZArith.
From stdpp Require Import base countable list numbers strings gmap.
From Verif Require Import Res Codec World WorldSpec.
Local Open Scope Z_scope.

(* Addresses behind which there are, in the end, only accounts: accounts themselves, nobody (the zero address), genuine
   contracts other than converters (they never use an administrative method of another contract), and converters whose
   owner and nominated owner are of this kind.  Not: unknown contracts. *)
Inductive accountable (w : world) : addr -> Prop :=
| accountable_user n : accountable w (EOA n)
| accountable_zero : accountable w zero_score
| accountable_plain a k : kind_at w a = Some k -> k <> KAdv -> k <> KConv -> accountable w a
| accountable_conv a : kind_at w a = Some KConv -> accountable w (owner_of w a) -> accountable w (pending_owner_of w a) -> accountable w a.

(* all roles of contract X are in such hands *)
Definition accountable_owner (w : world) (X : addr) : Prop :=
  accountable w (owner_of w X) /\ accountable w (pending_owner_of w X).
Definition accountable_roles (w : world) (X : addr) : Prop :=
  accountable_owner w X /\ (forall a, manager_of w X = Some a -> accountable w a) /\ (forall a, pending_manager_of w X = Some a -> accountable w a).

(* the methods that are for owners, managers and those nominated; updateRegistry is for everybody while it is allowed *)
Definition admin_method (m : msg) : bool :=
  match m with
  | MTransferOwnership _ | MAcceptOwnership | MTransferManagement _ | MAcceptManagement | MDisableTransfer _
  | MWithdrawTokens _ _ _ | MTransferTokenOwnership _ | MAcceptTokenOwnership | MDisableTokenTransfers _
  | MWithdrawFromToken _ _ _ | MAddConnector _ _ _ | MUpdateConnector _ _ _ _ | MDisableConnectorPurchases _ _
  | MUpdateRegistry | MRestoreRegistry | MDisableRegistryUpdate _ | MDisableConversions _ | MSetConversionFee _
  | MRegisterIcxToken _ _ | MRegisterAddress _ _ | MUnregisterAddress _ => true
  | _ => false
  end.

(* who may use an administrative method m of contract Y *)
Definition entitled (w : world) (a Y : addr) (m : msg) : Prop :=
  match m with
  | MAcceptOwnership => a = pending_owner_of w Y
  | MAcceptManagement => pending_manager_of w Y = Some a
  | MTransferManagement _ | MRestoreRegistry | MDisableRegistryUpdate _ | MDisableConversions _ | MSetConversionFee _ =>
      a = owner_of w Y \/ manager_of w Y = Some a
  | _ => a = owner_of w Y
  end.

(* Y is X, or a converter that owns X (or is nominated to) as its smart token, or one that owns such a converter, and so on *)
Inductive controls (w : world) (X : addr) : addr -> Prop :=
| controls_self : controls w X X
| controls_conv Y Z : controls w X Z -> kind_at w Y = Some KConv -> token_of w Y = Z ->
    Y = owner_of w Z \/ Y = pending_owner_of w Z -> controls w X Y.
