(* Generated by tools/gen_source.py from the files under /repo/contracts. *)
From Coq Require Import ZArith String List.
From Verif Require Import PySyntax.
Import ListNotations.
Local Open Scope Z_scope.
Local Open Scope string_scope.
Local Open Scope list_scope.

(* contracts/utility/utils.py:19-20 *)
Definition fun_utility_utils_require_positive_value : fundef :=
  FunDef "require_positive_value" [("amount", None)] []
  [SExpr (ECall (EName "require") [(ECompare (EName "amount") [(CGt, (EInt 0))]); (EStr "Amount should be greater than 0")] [])].
(* contracts/utility/utils.py:23-25 *)
Definition fun_utility_utils_require_valid_address : fundef :=
  FunDef "require_valid_address" [("address", None)] []
  [SExpr (ECall (EName "require") [(ECall (EName "is_valid_address") [(EName "address")] []); (EStr "")] [])].
(* contracts/utility/utils.py:28-30 *)
Definition fun_utility_utils_require_not_this : fundef :=
  FunDef "require_not_this" [("score_address", None); ("address", None)] []
  [SExpr (ECall (EName "require") [(ECompare (EName "score_address") [(CNe, (EName "address"))]); (EStr "")] [])].
(* contracts/utility/utils.py:33-41 *)
Definition fun_utility_utils_require : fundef :=
  FunDef "require" [("condition", None); ("revert_message", Some ENone)] []
  [SIf (ENot (EName "condition"))
    [SExpr (ECall (EName "revert") [(EName "revert_message")] [])]
    []].
(* contracts/utility/utils.py:44-45 *)
Definition fun_utility_utils_is_valid_address : fundef :=
  FunDef "is_valid_address" [("address", None)] []
  [SReturn (Some (EAndL [(ECompare (EName "address") [(CIsNot, ENone)]); (ECompare (EName "address") [(CNe, (EName "ZERO_SCORE_ADDRESS"))])]))].
(* contracts/utility/utils.py:48-57 *)
Definition fun_utility_utils_safe_sub : fundef :=
  FunDef "safe_sub" [("_x", None); ("_y", None)] []
  [SIf (ECompare (EName "_x") [(CLt, (EName "_y"))])
    [SExpr (ECall (EName "revert") [(EStr "Difference between two numbers should be positive")] [])]
    [];
   SReturn (Some (EBin BSub (EName "_x") (EName "_y")))].
(* contracts/utility/utils.py *)
Definition mod_utility_utils : module := PyModule "utility.utils" ["iconservice"]
  []
  []
  [fun_utility_utils_require_positive_value; fun_utility_utils_require_valid_address; fun_utility_utils_require_not_this; fun_utility_utils_require; fun_utility_utils_is_valid_address; fun_utility_utils_safe_sub]
  [].

(* contracts/utility/owned.py:26-27 *)
Definition meth_Owned_OwnerUpdate : fundef :=
  FunDef "OwnerUpdate" [("self", None); ("_prevOwner", None); ("_newOwner", None)] [(ECall (EName "eventlog") [] [("indexed", (EInt 2))])]
  [SPass].
(* contracts/utility/owned.py:29-32 *)
Definition meth_Owned___init__ : fundef :=
  FunDef "__init__" [("self", None); ("db", None)] []
  [SExpr (ECall (EAttr (ECall (EName "super") [] []) "__init__") [(EName "db")] []);
   SAssign [(EAttr (EName "self") "_owner")] (ECall (EName "VarDB") [(EStr "prev_owner"); (EName "db")] [("value_type", (EName "Address"))]);
   SAssign [(EAttr (EName "self") "_new_owner")] (ECall (EName "VarDB") [(EStr "new_owner"); (EName "db")] [("value_type", (EName "Address"))])].
(* contracts/utility/owned.py:34-36 *)
Definition meth_Owned_on_install : fundef :=
  FunDef "on_install" [("self", None)] []
  [SExpr (ECall (EAttr (EAttr (EName "self") "_owner") "set") [(EAttr (EAttr (EName "self") "msg") "sender")] []);
   SExpr (ECall (EAttr (EAttr (EName "self") "_new_owner") "set") [(EName "ZERO_SCORE_ADDRESS")] [])].
(* contracts/utility/owned.py:38-39 *)
Definition meth_Owned_on_update : fundef :=
  FunDef "on_update" [("self", None)] []
  [SExpr (ECall (EAttr (EName "IconScoreBase") "on_update") [(EName "self")] [])].
(* contracts/utility/owned.py:41-44 *)
Definition meth_Owned_require_owner_only : fundef :=
  FunDef "require_owner_only" [("self", None)] []
  [SIf (ECompare (EAttr (EAttr (EName "self") "msg") "sender") [(CNe, (ECall (EAttr (EAttr (EName "self") "_owner") "get") [] []))])
    [SExpr (ECall (EName "revert") [(EStr "Invalid owner")] [])]
    []].
(* contracts/utility/owned.py:47-48 *)
Definition meth_Owned_getOwner : fundef :=
  FunDef "getOwner" [("self", None)] [(ECall (EName "external") [] [("readonly", (EBool true))])]
  [SReturn (Some (ECall (EAttr (EAttr (EName "self") "_owner") "get") [] []))].
(* contracts/utility/owned.py:51-52 *)
Definition meth_Owned_getNewOwner : fundef :=
  FunDef "getNewOwner" [("self", None)] [(ECall (EName "external") [] [("readonly", (EBool true))])]
  [SReturn (Some (ECall (EAttr (EAttr (EName "self") "_new_owner") "get") [] []))].
(* contracts/utility/owned.py:55-59 *)
Definition meth_Owned_transferOwnerShip : fundef :=
  FunDef "transferOwnerShip" [("self", None); ("_newOwner", None)] [(EName "external")]
  [SExpr (ECall (EAttr (EName "self") "require_owner_only") [] []);
   SIf (ECompare (EName "_newOwner") [(CEq, (ECall (EAttr (EAttr (EName "self") "_owner") "get") [] []))])
    [SExpr (ECall (EName "revert") [(EStr "New owner is already owner")] [])]
    [];
   SExpr (ECall (EAttr (EAttr (EName "self") "_new_owner") "set") [(EName "_newOwner")] [])].
(* contracts/utility/owned.py:62-70 *)
Definition meth_Owned_acceptOwnerShip : fundef :=
  FunDef "acceptOwnerShip" [("self", None)] [(EName "external")]
  [SIf (ECompare (EAttr (EAttr (EName "self") "msg") "sender") [(CNe, (ECall (EAttr (EAttr (EName "self") "_new_owner") "get") [] []))])
    [SExpr (ECall (EName "revert") [(EStr "You are not a new owner")] [])]
    [];
   SAssign [(EName "prev_owner")] (ECall (EAttr (EAttr (EName "self") "_owner") "get") [] []);
   SAssign [(EName "new_owner")] (ECall (EAttr (EAttr (EName "self") "_new_owner") "get") [] []);
   SExpr (ECall (EAttr (EName "self") "OwnerUpdate") [(EName "prev_owner"); (EName "new_owner")] []);
   SExpr (ECall (EAttr (EAttr (EName "self") "_owner") "set") [(EName "new_owner")] []);
   SExpr (ECall (EAttr (EAttr (EName "self") "_new_owner") "set") [(EName "ZERO_SCORE_ADDRESS")] [])].
(* contracts/utility/owned.py:23-70 *)
Definition class_Owned : classdef :=
  ClassDef "Owned" [(EName "IconScoreBase"); (EName "ABCOwned")]
  []
  [meth_Owned_OwnerUpdate; meth_Owned___init__; meth_Owned_on_install; meth_Owned_on_update; meth_Owned_require_owner_only; meth_Owned_getOwner; meth_Owned_getNewOwner; meth_Owned_transferOwnerShip; meth_Owned_acceptOwnerShip].
(* contracts/utility/owned.py *)
Definition mod_utility_owned : module := PyModule "utility.owned" ["iconservice"]
  [("ABCOwned", ("interfaces.abc_owned", "ABCOwned"))]
  []
  []
  [class_Owned].

(* contracts/utility/managed.py:29-30 *)
Definition meth_Managed_ManagerUpdate : fundef :=
  FunDef "ManagerUpdate" [("self", None); ("_prevManager", None); ("_newManager", None)] [(ECall (EName "eventlog") [] [("indexed", (EInt 2))])]
  [SPass].
(* contracts/utility/managed.py:32-35 *)
Definition meth_Managed___init__ : fundef :=
  FunDef "__init__" [("self", None); ("db", None)] []
  [SExpr (ECall (EAttr (ECall (EName "super") [] []) "__init__") [(EName "db")] []);
   SAssign [(EAttr (EName "self") "_manager")] (ECall (EName "VarDB") [(EStr "manager"); (EName "db")] [("value_type", (EName "Address"))]);
   SAssign [(EAttr (EName "self") "_new_manager")] (ECall (EName "VarDB") [(EStr "new_manager"); (EName "db")] [("value_type", (EName "Address"))])].
(* contracts/utility/managed.py:37-39 *)
Definition meth_Managed_on_install : fundef :=
  FunDef "on_install" [("self", None)] []
  [SExpr (ECall (EAttr (EAttr (EName "self") "_manager") "set") [(EAttr (EAttr (EName "self") "msg") "sender")] []);
   SExpr (ECall (EAttr (EAttr (EName "self") "_new_manager") "set") [(EName "ZERO_SCORE_ADDRESS")] [])].
(* contracts/utility/managed.py:41-42 *)
Definition meth_Managed_on_update : fundef :=
  FunDef "on_update" [("self", None)] []
  [SExpr (ECall (EAttr (EName "Owned") "on_update") [(EName "self")] [])].
(* contracts/utility/managed.py:45-46 *)
Definition meth_Managed_require_manager_only : fundef :=
  FunDef "require_manager_only" [("self", None)] []
  [SExpr (ECall (EName "require") [(ECompare (EAttr (EAttr (EName "self") "msg") "sender") [(CEq, (ECall (EAttr (EAttr (EName "self") "_manager") "get") [] []))]); (EStr "Invalid manager")] [])].
(* contracts/utility/managed.py:49-51 *)
Definition meth_Managed_require_owner_or_manager_only : fundef :=
  FunDef "require_owner_or_manager_only" [("self", None)] []
  [SExpr (ECall (EName "require") [(EOrL [(ECompare (EAttr (EAttr (EName "self") "msg") "sender") [(CEq, (ECall (EAttr (EAttr (EName "self") "_manager") "get") [] []))]); (ECompare (EAttr (EAttr (EName "self") "msg") "sender") [(CEq, (ECall (EAttr (EName "self") "getOwner") [] []))])]); (EStr "Invalid sender")] [])].
(* contracts/utility/managed.py:54-55 *)
Definition meth_Managed_getManager : fundef :=
  FunDef "getManager" [("self", None)] [(ECall (EName "external") [] [("readonly", (EBool true))])]
  [SReturn (Some (ECall (EAttr (EAttr (EName "self") "_manager") "get") [] []))].
(* contracts/utility/managed.py:58-59 *)
Definition meth_Managed_getNewManager : fundef :=
  FunDef "getNewManager" [("self", None)] [(ECall (EName "external") [] [("readonly", (EBool true))])]
  [SReturn (Some (ECall (EAttr (EAttr (EName "self") "_new_manager") "get") [] []))].
(* contracts/utility/managed.py:62-73 *)
Definition meth_Managed_transferManagement : fundef :=
  FunDef "transferManagement" [("self", None); ("_newManager", None)] [(EName "external")]
  [SExpr (ECall (EAttr (EName "self") "require_owner_or_manager_only") [] []);
   SExpr (ECall (EName "require") [(ECompare (ECall (EAttr (EAttr (EName "self") "_manager") "get") [] []) [(CNe, (EName "_newManager"))]); (EStr "New manager is already manager")] []);
   SExpr (ECall (EAttr (EAttr (EName "self") "_new_manager") "set") [(EName "_newManager")] [])].
(* contracts/utility/managed.py:76-87 *)
Definition meth_Managed_acceptManagement : fundef :=
  FunDef "acceptManagement" [("self", None)] [(EName "external")]
  [SIf (ECompare (EAttr (EAttr (EName "self") "msg") "sender") [(CNe, (ECall (EAttr (EAttr (EName "self") "_new_manager") "get") [] []))])
    [SExpr (ECall (EName "revert") [(EStr "You are not a new manager")] [])]
    [];
   SAssign [(EName "prev_manager")] (ECall (EAttr (EAttr (EName "self") "_manager") "get") [] []);
   SAssign [(EName "new_manager")] (ECall (EAttr (EAttr (EName "self") "_new_manager") "get") [] []);
   SExpr (ECall (EAttr (EName "self") "ManagerUpdate") [(EName "prev_manager"); (EName "new_manager")] []);
   SExpr (ECall (EAttr (EAttr (EName "self") "_manager") "set") [(EName "new_manager")] []);
   SExpr (ECall (EAttr (EAttr (EName "self") "_new_manager") "set") [(EName "ZERO_SCORE_ADDRESS")] [])].
(* contracts/utility/managed.py:22-87 *)
Definition class_Managed : classdef :=
  ClassDef "Managed" [(EName "Owned")]
  []
  [meth_Managed_ManagerUpdate; meth_Managed___init__; meth_Managed_on_install; meth_Managed_on_update; meth_Managed_require_manager_only; meth_Managed_require_owner_or_manager_only; meth_Managed_getManager; meth_Managed_getNewManager; meth_Managed_transferManagement; meth_Managed_acceptManagement].
(* contracts/utility/managed.py *)
Definition mod_utility_managed : module := PyModule "utility.managed" ["utility.utils"]
  [("Owned", ("utility.owned", "Owned"))]
  []
  []
  [class_Managed].

(* contracts/utility/token_holder.py:24-25 *)
Definition meth_TokenHolder___init__ : fundef :=
  FunDef "__init__" [("self", None); ("db", None)] []
  [SExpr (ECall (EAttr (ECall (EName "super") [] []) "__init__") [(EName "db")] [])].
(* contracts/utility/token_holder.py:27-28 *)
Definition meth_TokenHolder_on_install : fundef :=
  FunDef "on_install" [("self", None)] []
  [SExpr (ECall (EAttr (EName "Owned") "on_install") [(EName "self")] [])].
(* contracts/utility/token_holder.py:30-31 *)
Definition meth_TokenHolder_on_update : fundef :=
  FunDef "on_update" [("self", None)] []
  [SExpr (ECall (EAttr (EName "Owned") "on_update") [(EName "self")] [])].
(* contracts/utility/token_holder.py:34-41 *)
Definition meth_TokenHolder_withdrawTokens : fundef :=
  FunDef "withdrawTokens" [("self", None); ("_token", None); ("_to", None); ("_amount", None)] [(EName "external")]
  [SExpr (ECall (EAttr (EName "self") "require_owner_only") [] []);
   SExpr (ECall (EName "require_positive_value") [(EName "_amount")] []);
   SExpr (ECall (EName "require_not_this") [(EAttr (EName "self") "address"); (EName "_to")] []);
   SExpr (ECall (EName "require_valid_address") [(EName "_to")] []);
   SAssign [(EName "irc_token_score")] (ECall (EAttr (EName "self") "create_interface_score") [(EName "_token"); (ECall (EName "ProxyScore") [(EName "ABCIRCToken")] [])] []);
   SExpr (ECall (EAttr (EName "irc_token_score") "transfer") [(EName "_to"); (EName "_amount")] [])].
(* contracts/utility/token_holder.py:23-41 *)
Definition class_TokenHolder : classdef :=
  ClassDef "TokenHolder" [(EName "Owned"); (EName "ABCTokenHolder")]
  []
  [meth_TokenHolder___init__; meth_TokenHolder_on_install; meth_TokenHolder_on_update; meth_TokenHolder_withdrawTokens].
(* contracts/utility/token_holder.py *)
Definition mod_utility_token_holder : module := PyModule "utility.token_holder" ["utility.utils"]
  [("Owned", ("utility.owned", "Owned")); ("ABCIRCToken", ("interfaces.abc_irc_token", "ABCIRCToken")); ("ABCTokenHolder", ("interfaces.abc_token_holder", "ABCTokenHolder")); ("ProxyScore", ("utility.proxy_score", "ProxyScore"))]
  []
  []
  [class_TokenHolder].

(* contracts/utility/flexible_token_controller.py:41-43 *)
Definition meth_FlexibleTokenController___init__ : fundef :=
  FunDef "__init__" [("self", None); ("db", None)] []
  [SExpr (ECall (EAttr (ECall (EName "super") [] []) "__init__") [(EName "db")] []);
   SAssign [(EAttr (EName "self") "_token")] (ECall (EName "VarDB") [(EStr "token"); (EName "db"); (EName "Address")] [])].
(* contracts/utility/flexible_token_controller.py:45-48 *)
Definition meth_FlexibleTokenController_on_install : fundef :=
  FunDef "on_install" [("self", None); ("_token", None)] []
  [SExpr (ECall (EName "require_valid_address") [(EName "_token")] []);
   SExpr (ECall (EAttr (EName "TokenHolder") "on_install") [(EName "self")] []);
   SExpr (ECall (EAttr (EAttr (EName "self") "_token") "set") [(EName "_token")] [])].
(* contracts/utility/flexible_token_controller.py:50-51 *)
Definition meth_FlexibleTokenController_on_update : fundef :=
  FunDef "on_update" [("self", None)] []
  [SExpr (ECall (EAttr (EName "TokenHolder") "on_update") [(EName "self")] [])].
(* contracts/utility/flexible_token_controller.py:53-59 *)
Definition meth_FlexibleTokenController__is_active : fundef :=
  FunDef "_is_active" [("self", None)] []
  [SAssign [(EName "flexible_token")] (ECall (EAttr (EName "self") "create_interface_score") [(ECall (EAttr (EAttr (EName "self") "_token") "get") [] []); (EName "FlexibleToken")] []);
   SReturn (Some (ECompare (ECall (EAttr (EName "flexible_token") "getOwner") [] []) [(CEq, (EAttr (EName "self") "address"))]))].
(* contracts/utility/flexible_token_controller.py:61-65 *)
Definition meth_FlexibleTokenController__require_active : fundef :=
  FunDef "_require_active" [("self", None)] []
  [SExpr (ECall (EName "require") [(ECall (EAttr (EName "self") "_is_active") [] []); (EStr "required active")] [])].
(* contracts/utility/flexible_token_controller.py:67-71 *)
Definition meth_FlexibleTokenController__require_inactive : fundef :=
  FunDef "_require_inactive" [("self", None)] []
  [SExpr (ECall (EName "require") [(ENot (ECall (EAttr (EName "self") "_is_active") [] [])); (EStr "required inactive")] [])].
(* contracts/utility/flexible_token_controller.py:74-79 *)
Definition meth_FlexibleTokenController_isActive : fundef :=
  FunDef "isActive" [("self", None)] [(ECall (EName "external") [] [("readonly", (EBool true))])]
  [SReturn (Some (ECall (EAttr (EName "self") "_is_active") [] []))].
(* contracts/utility/flexible_token_controller.py:82-91 *)
Definition meth_FlexibleTokenController_transferTokenOwnership : fundef :=
  FunDef "transferTokenOwnership" [("self", None); ("_newOwner", None)] [(EName "external")]
  [SExpr (ECall (EAttr (EName "self") "require_owner_only") [] []);
   SAssign [(EName "flexible_token")] (ECall (EAttr (EName "self") "create_interface_score") [(ECall (EAttr (EAttr (EName "self") "_token") "get") [] []); (EName "FlexibleToken")] []);
   SExpr (ECall (EAttr (EName "flexible_token") "transferOwnerShip") [(EName "_newOwner")] [])].
(* contracts/utility/flexible_token_controller.py:94-101 *)
Definition meth_FlexibleTokenController_acceptTokenOwnership : fundef :=
  FunDef "acceptTokenOwnership" [("self", None)] [(EName "external")]
  [SExpr (ECall (EAttr (EName "self") "require_owner_only") [] []);
   SAssign [(EName "flexible_token")] (ECall (EAttr (EName "self") "create_interface_score") [(ECall (EAttr (EAttr (EName "self") "_token") "get") [] []); (EName "FlexibleToken")] []);
   SExpr (ECall (EAttr (EName "flexible_token") "acceptOwnerShip") [] [])].
(* contracts/utility/flexible_token_controller.py:104-113 *)
Definition meth_FlexibleTokenController_disableTokenTransfers : fundef :=
  FunDef "disableTokenTransfers" [("self", None); ("_disable", None)] [(EName "external")]
  [SExpr (ECall (EAttr (EName "self") "require_owner_only") [] []);
   SAssign [(EName "flexible_token")] (ECall (EAttr (EName "self") "create_interface_score") [(ECall (EAttr (EAttr (EName "self") "_token") "get") [] []); (EName "FlexibleToken")] []);
   SExpr (ECall (EAttr (EName "flexible_token") "disableTransfer") [(EName "_disable")] [])].
(* contracts/utility/flexible_token_controller.py:116-127 *)
Definition meth_FlexibleTokenController_withdrawFromToken : fundef :=
  FunDef "withdrawFromToken" [("self", None); ("_token", None); ("_to", None); ("_amount", None)] [(EName "external")]
  [SExpr (ECall (EAttr (EName "self") "require_owner_only") [] []);
   SAssign [(EName "flexible_token")] (ECall (EAttr (EName "self") "create_interface_score") [(ECall (EAttr (EAttr (EName "self") "_token") "get") [] []); (EName "FlexibleToken")] []);
   SExpr (ECall (EAttr (EName "flexible_token") "withdrawTokens") [(EName "_token"); (EName "_to"); (EName "_amount")] [])].
(* contracts/utility/flexible_token_controller.py:130-136 *)
Definition meth_FlexibleTokenController_getToken : fundef :=
  FunDef "getToken" [("self", None)] [(ECall (EName "external") [] [("readonly", (EBool true))])]
  [SReturn (Some (ECall (EAttr (EAttr (EName "self") "_token") "get") [] []))].
(* contracts/utility/flexible_token_controller.py:27-136 *)
Definition class_FlexibleTokenController : classdef :=
  ClassDef "FlexibleTokenController" [(EName "TokenHolder")]
  []
  [meth_FlexibleTokenController___init__; meth_FlexibleTokenController_on_install; meth_FlexibleTokenController_on_update; meth_FlexibleTokenController__is_active; meth_FlexibleTokenController__require_active; meth_FlexibleTokenController__require_inactive; meth_FlexibleTokenController_isActive; meth_FlexibleTokenController_transferTokenOwnership; meth_FlexibleTokenController_acceptTokenOwnership; meth_FlexibleTokenController_disableTokenTransfers; meth_FlexibleTokenController_withdrawFromToken; meth_FlexibleTokenController_getToken].
(* contracts/utility/flexible_token_controller.py *)
Definition mod_utility_flexible_token_controller : module := PyModule "utility.flexible_token_controller" ["utility.utils"]
  [("ProxyScore", ("utility.proxy_score", "ProxyScore")); ("TokenHolder", ("utility.token_holder", "TokenHolder")); ("ABCFlexibleToken", ("interfaces.abc_flexible_token", "ABCFlexibleToken"))]
  [("FlexibleToken", (ECall (EName "ProxyScore") [(EName "ABCFlexibleToken")] []))]
  []
  [class_FlexibleTokenController].

(* contracts/interfaces/abc_owned.py:26-32 *)
Definition meth_ABCOwned_getOwner : fundef :=
  FunDef "getOwner" [("self", None)] [(EName "abstractmethod")]
  [SPass].
(* contracts/interfaces/abc_owned.py:35-44 *)
Definition meth_ABCOwned_transferOwnerShip : fundef :=
  FunDef "transferOwnerShip" [("self", None); ("_newOwner", None)] [(EName "abstractmethod")]
  [SPass].
(* contracts/interfaces/abc_owned.py:47-53 *)
Definition meth_ABCOwned_acceptOwnerShip : fundef :=
  FunDef "acceptOwnerShip" [("self", None)] [(EName "abstractmethod")]
  [SPass].
(* contracts/interfaces/abc_owned.py:20-53 *)
Definition class_ABCOwned : classdef :=
  ClassDef "ABCOwned" [(EName "ABC")]
  []
  [meth_ABCOwned_getOwner; meth_ABCOwned_transferOwnerShip; meth_ABCOwned_acceptOwnerShip].
(* contracts/interfaces/abc_owned.py *)
Definition mod_interfaces_abc_owned : module := PyModule "interfaces.abc_owned" ["iconservice"]
  []
  []
  []
  [class_ABCOwned].

(* contracts/interfaces/abc_token_holder.py:28-38 *)
Definition meth_ABCTokenHolder_withdrawTokens : fundef :=
  FunDef "withdrawTokens" [("self", None); ("_token", None); ("_to", None); ("_amount", None)] [(EName "abstractmethod")]
  [SPass].
(* contracts/interfaces/abc_token_holder.py:22-38 *)
Definition class_ABCTokenHolder : classdef :=
  ClassDef "ABCTokenHolder" [(EName "ABCOwned")]
  []
  [meth_ABCTokenHolder_withdrawTokens].
(* contracts/interfaces/abc_token_holder.py *)
Definition mod_interfaces_abc_token_holder : module := PyModule "interfaces.abc_token_holder" ["iconservice"]
  [("ABCOwned", ("interfaces.abc_owned", "ABCOwned"))]
  []
  []
  [class_ABCTokenHolder].

(* contracts/interfaces/abc_irc_token.py:26-32 *)
Definition meth_ABCIRCToken_name : fundef :=
  FunDef "name" [("self", None)] [(EName "abstractmethod")]
  [SPass].
(* contracts/interfaces/abc_irc_token.py:35-42 *)
Definition meth_ABCIRCToken_symbol : fundef :=
  FunDef "symbol" [("self", None)] [(EName "abstractmethod")]
  [SPass].
(* contracts/interfaces/abc_irc_token.py:45-52 *)
Definition meth_ABCIRCToken_decimals : fundef :=
  FunDef "decimals" [("self", None)] [(EName "abstractmethod")]
  [SPass].
(* contracts/interfaces/abc_irc_token.py:55-61 *)
Definition meth_ABCIRCToken_totalSupply : fundef :=
  FunDef "totalSupply" [("self", None)] [(EName "abstractmethod")]
  [SPass].
(* contracts/interfaces/abc_irc_token.py:64-72 *)
Definition meth_ABCIRCToken_balanceOf : fundef :=
  FunDef "balanceOf" [("self", None); ("_owner", None)] [(EName "abstractmethod")]
  [SPass].
(* contracts/interfaces/abc_irc_token.py:75-84 *)
Definition meth_ABCIRCToken_transfer : fundef :=
  FunDef "transfer" [("self", None); ("_to", None); ("_value", None); ("_data", Some ENone)] [(EName "abstractmethod")]
  [SPass].
(* contracts/interfaces/abc_irc_token.py:20-84 *)
Definition class_ABCIRCToken : classdef :=
  ClassDef "ABCIRCToken" [(EName "ABC")]
  []
  [meth_ABCIRCToken_name; meth_ABCIRCToken_symbol; meth_ABCIRCToken_decimals; meth_ABCIRCToken_totalSupply; meth_ABCIRCToken_balanceOf; meth_ABCIRCToken_transfer].
(* contracts/interfaces/abc_irc_token.py *)
Definition mod_interfaces_abc_irc_token : module := PyModule "interfaces.abc_irc_token" ["iconservice"]
  []
  []
  []
  [class_ABCIRCToken].

(* contracts/interfaces/abc_icx_token.py:29-33 *)
Definition meth_ABCIcxToken_deposit : fundef :=
  FunDef "deposit" [("self", None)] [(EName "abstractmethod")]
  [SPass].
(* contracts/interfaces/abc_icx_token.py:36-43 *)
Definition meth_ABCIcxToken_withdraw : fundef :=
  FunDef "withdraw" [("self", None); ("_amount", None)] [(EName "abstractmethod")]
  [SPass].
(* contracts/interfaces/abc_icx_token.py:46-54 *)
Definition meth_ABCIcxToken_withdrawTo : fundef :=
  FunDef "withdrawTo" [("self", None); ("_amount", None); ("_to", None)] [(EName "abstractmethod")]
  [SPass].
(* contracts/interfaces/abc_icx_token.py:23-54 *)
Definition class_ABCIcxToken : classdef :=
  ClassDef "ABCIcxToken" [(EName "ABCIRCToken"); (EName "ABCTokenHolder")]
  []
  [meth_ABCIcxToken_deposit; meth_ABCIcxToken_withdraw; meth_ABCIcxToken_withdrawTo].
(* contracts/interfaces/abc_icx_token.py *)
Definition mod_interfaces_abc_icx_token : module := PyModule "interfaces.abc_icx_token" ["iconservice"]
  [("ABCIRCToken", ("interfaces.abc_irc_token", "ABCIRCToken")); ("ABCTokenHolder", ("interfaces.abc_token_holder", "ABCTokenHolder"))]
  []
  []
  [class_ABCIcxToken].

(* contracts/interfaces/abc_flexible_token.py:29-37 *)
Definition meth_ABCFlexibleToken_disableTransfer : fundef :=
  FunDef "disableTransfer" [("self", None); ("_disable", None)] [(EName "abstractmethod")]
  [SPass].
(* contracts/interfaces/abc_flexible_token.py:40-49 *)
Definition meth_ABCFlexibleToken_issue : fundef :=
  FunDef "issue" [("self", None); ("_to", None); ("_amount", None)] [(EName "abstractmethod")]
  [SPass].
(* contracts/interfaces/abc_flexible_token.py:52-61 *)
Definition meth_ABCFlexibleToken_destroy : fundef :=
  FunDef "destroy" [("self", None); ("_from", None); ("_amount", None)] [(EName "abstractmethod")]
  [SPass].
(* contracts/interfaces/abc_flexible_token.py:23-61 *)
Definition class_ABCFlexibleToken : classdef :=
  ClassDef "ABCFlexibleToken" [(EName "ABCIRCToken"); (EName "ABCTokenHolder")]
  []
  [meth_ABCFlexibleToken_disableTransfer; meth_ABCFlexibleToken_issue; meth_ABCFlexibleToken_destroy].
(* contracts/interfaces/abc_flexible_token.py *)
Definition mod_interfaces_abc_flexible_token : module := PyModule "interfaces.abc_flexible_token" ["iconservice"]
  [("ABCIRCToken", ("interfaces.abc_irc_token", "ABCIRCToken")); ("ABCTokenHolder", ("interfaces.abc_token_holder", "ABCTokenHolder"))]
  []
  []
  [class_ABCFlexibleToken].

(* contracts/interfaces/abc_formula.py:25-43 *)
Definition meth_ABCFormula_calculate_purchase_return : fundef :=
  FunDef "calculate_purchase_return" [("self", None); ("supply", None); ("connector_balance", None); ("connector_weight", None); ("deposit_amount", None)] [(EName "abstractmethod")]
  [SPass].
(* contracts/interfaces/abc_formula.py:46-64 *)
Definition meth_ABCFormula_calculate_sale_return : fundef :=
  FunDef "calculate_sale_return" [("self", None); ("supply", None); ("connector_balance", None); ("connector_weight", None); ("sell_amount", None)] [(EName "abstractmethod")]
  [SPass].
(* contracts/interfaces/abc_formula.py:67-87 *)
Definition meth_ABCFormula_calculate_cross_connector_return : fundef :=
  FunDef "calculate_cross_connector_return" [("self", None); ("from_connector_balance", None); ("from_connector_weight", None); ("to_connector_balance", None); ("to_connector_weight", None); ("amount", None)] [(EName "abstractmethod")]
  [SPass].
(* contracts/interfaces/abc_formula.py:20-87 *)
Definition class_ABCFormula : classdef :=
  ClassDef "ABCFormula" [(EName "ABC")]
  []
  [meth_ABCFormula_calculate_purchase_return; meth_ABCFormula_calculate_sale_return; meth_ABCFormula_calculate_cross_connector_return].
(* contracts/interfaces/abc_formula.py *)
Definition mod_interfaces_abc_formula : module := PyModule "interfaces.abc_formula" ["iconservice"]
  []
  []
  []
  [class_ABCFormula].

(* contracts/interfaces/abc_converter.py:26-36 *)
Definition meth_ABCConverter_getReturn : fundef :=
  FunDef "getReturn" [("self", None); ("_fromToken", None); ("_toToken", None); ("_amount", None)] [(EName "abstractmethod")]
  [SPass].
(* contracts/interfaces/abc_converter.py:39-45 *)
Definition meth_ABCConverter_getConversionFee : fundef :=
  FunDef "getConversionFee" [("self", None)] [(EName "abstractmethod")]
  [SPass].
(* contracts/interfaces/abc_converter.py:48-55 *)
Definition meth_ABCConverter_getConnector : fundef :=
  FunDef "getConnector" [("self", None); ("_address", None)] [(EName "abstractmethod")]
  [SPass].
(* contracts/interfaces/abc_converter.py:58-66 *)
Definition meth_ABCConverter_getConnectorBalance : fundef :=
  FunDef "getConnectorBalance" [("self", None); ("_connectorToken", None)] [(EName "abstractmethod")]
  [SPass].
(* contracts/interfaces/abc_converter.py:69-86 *)
Definition meth_ABCConverter_tokenFallback : fundef :=
  FunDef "tokenFallback" [("self", None); ("_from", None); ("_value", None); ("_data", None)] [(EName "abstractmethod")]
  [SPass].
(* contracts/interfaces/abc_converter.py:20-86 *)
Definition class_ABCConverter : classdef :=
  ClassDef "ABCConverter" [(EName "ABC")]
  []
  [meth_ABCConverter_getReturn; meth_ABCConverter_getConversionFee; meth_ABCConverter_getConnector; meth_ABCConverter_getConnectorBalance; meth_ABCConverter_tokenFallback].
(* contracts/interfaces/abc_converter.py *)
Definition mod_interfaces_abc_converter : module := PyModule "interfaces.abc_converter" ["iconservice"]
  []
  []
  []
  [class_ABCConverter].

(* contracts/interfaces/abc_score_registry.py:32-38 *)
Definition meth_ABCScoreRegistry_getAddress : fundef :=
  FunDef "getAddress" [("self", None); ("_scoreName", None)] [(EName "abstractmethod")]
  [SPass].
(* contracts/interfaces/abc_score_registry.py:20-38 *)
Definition class_ABCScoreRegistry : classdef :=
  ClassDef "ABCScoreRegistry" [(EName "ABC")]
  [SAssign [(EName "SCORE_REGISTRY")] (EStr "ScoreRegistry");
   SAssign [(EName "NETWORK")] (EStr "Network");
   SAssign [(EName "SCORE_KEYS")] (EListL [(EName "SCORE_REGISTRY"); (EName "NETWORK")])]
  [meth_ABCScoreRegistry_getAddress].
(* contracts/interfaces/abc_score_registry.py *)
Definition mod_interfaces_abc_score_registry : module := PyModule "interfaces.abc_score_registry" ["iconservice"]
  []
  []
  []
  [class_ABCScoreRegistry].

(* contracts/irc_token/irc_token.py:25-26 *)
Definition meth_TokenFallbackInterface_tokenFallback : fundef :=
  FunDef "tokenFallback" [("self", None); ("_from", None); ("_value", None); ("_data", None)] [(EName "interface")]
  [SPass].
(* contracts/irc_token/irc_token.py:23-26 *)
Definition class_TokenFallbackInterface : classdef :=
  ClassDef "TokenFallbackInterface" [(EName "InterfaceScore")]
  []
  [meth_TokenFallbackInterface_tokenFallback].
(* contracts/irc_token/irc_token.py:37-38 *)
Definition meth_IRCToken_Transfer : fundef :=
  FunDef "Transfer" [("self", None); ("_from", None); ("_to", None); ("_value", None); ("_data", None)] [(ECall (EName "eventlog") [] [("indexed", (EInt 3))])]
  [SPass].
(* contracts/irc_token/irc_token.py:40-46 *)
Definition meth_IRCToken___init__ : fundef :=
  FunDef "__init__" [("self", None); ("db", None)] []
  [SExpr (ECall (EAttr (ECall (EName "super") [] []) "__init__") [(EName "db")] []);
   SAssign [(EAttr (EName "self") "_name")] (ECall (EName "VarDB") [(EAttr (EName "self") "_NAME"); (EName "db")] [("value_type", (EName "str"))]);
   SAssign [(EAttr (EName "self") "_symbol")] (ECall (EName "VarDB") [(EAttr (EName "self") "_SYMBOL"); (EName "db")] [("value_type", (EName "str"))]);
   SAssign [(EAttr (EName "self") "_total_supply")] (ECall (EName "VarDB") [(EAttr (EName "self") "_TOTAL_SUPPLY"); (EName "db")] [("value_type", (EName "int"))]);
   SAssign [(EAttr (EName "self") "_decimals")] (ECall (EName "VarDB") [(EAttr (EName "self") "_DECIMALS"); (EName "db")] [("value_type", (EName "int"))]);
   SAssign [(EAttr (EName "self") "_balances")] (ECall (EName "DictDB") [(EAttr (EName "self") "_BALANCES"); (EName "db")] [("value_type", (EName "int"))])].
(* contracts/irc_token/irc_token.py:48-63 *)
Definition meth_IRCToken_on_install : fundef :=
  FunDef "on_install" [("self", None); ("_name", None); ("_symbol", None); ("_initialSupply", None); ("_decimals", None)] []
  [SExpr (ECall (EAttr (EName "IconScoreBase") "on_install") [(EName "self")] []);
   SIf (ECompare (EName "_initialSupply") [(CLt, (EInt 0))])
    [SExpr (ECall (EName "revert") [(EStr "Initial supply cannot be less than zero")] [])]
    [];
   SIf (ECompare (EName "_decimals") [(CLt, (EInt 0))])
    [SExpr (ECall (EName "revert") [(EStr "Decimals cannot be less than zero")] [])]
    [];
   SAssign [(EName "total_supply")] (EBin BMul (EName "_initialSupply") (EBin BPow (EInt 10) (EName "_decimals")));
   SExpr (ECall (EAttr (EName "Logger") "debug") [EFString; (EName "TAG")] []);
   SExpr (ECall (EAttr (EAttr (EName "self") "_name") "set") [(EName "_name")] []);
   SExpr (ECall (EAttr (EAttr (EName "self") "_symbol") "set") [(EName "_symbol")] []);
   SExpr (ECall (EAttr (EAttr (EName "self") "_total_supply") "set") [(EName "total_supply")] []);
   SExpr (ECall (EAttr (EAttr (EName "self") "_decimals") "set") [(EName "_decimals")] []);
   SAssign [(ESub (EAttr (EName "self") "_balances") (EAttr (EAttr (EName "self") "msg") "sender"))] (EName "total_supply")].
(* contracts/irc_token/irc_token.py:65-66 *)
Definition meth_IRCToken_on_update : fundef :=
  FunDef "on_update" [("self", None)] []
  [SExpr (ECall (EAttr (EName "IconScoreBase") "on_update") [(EName "self")] [])].
(* contracts/irc_token/irc_token.py:69-70 *)
Definition meth_IRCToken_name : fundef :=
  FunDef "name" [("self", None)] [(ECall (EName "external") [] [("readonly", (EBool true))])]
  [SReturn (Some (ECall (EAttr (EAttr (EName "self") "_name") "get") [] []))].
(* contracts/irc_token/irc_token.py:73-74 *)
Definition meth_IRCToken_symbol : fundef :=
  FunDef "symbol" [("self", None)] [(ECall (EName "external") [] [("readonly", (EBool true))])]
  [SReturn (Some (ECall (EAttr (EAttr (EName "self") "_symbol") "get") [] []))].
(* contracts/irc_token/irc_token.py:77-78 *)
Definition meth_IRCToken_decimals : fundef :=
  FunDef "decimals" [("self", None)] [(ECall (EName "external") [] [("readonly", (EBool true))])]
  [SReturn (Some (ECall (EAttr (EAttr (EName "self") "_decimals") "get") [] []))].
(* contracts/irc_token/irc_token.py:81-82 *)
Definition meth_IRCToken_totalSupply : fundef :=
  FunDef "totalSupply" [("self", None)] [(ECall (EName "external") [] [("readonly", (EBool true))])]
  [SReturn (Some (ECall (EAttr (EAttr (EName "self") "_total_supply") "get") [] []))].
(* contracts/irc_token/irc_token.py:85-86 *)
Definition meth_IRCToken_balanceOf : fundef :=
  FunDef "balanceOf" [("self", None); ("_owner", None)] [(ECall (EName "external") [] [("readonly", (EBool true))])]
  [SReturn (Some (ESub (EAttr (EName "self") "_balances") (EName "_owner")))].
(* contracts/irc_token/irc_token.py:89-92 *)
Definition meth_IRCToken_transfer : fundef :=
  FunDef "transfer" [("self", None); ("_to", None); ("_value", None); ("_data", Some ENone)] [(EName "external")]
  [SIf (ECompare (EName "_data") [(CIs, ENone)])
    [SAssign [(EName "_data")] (EBytes "None")]
    [];
   SExpr (ECall (EAttr (EName "self") "_transfer") [(EAttr (EAttr (EName "self") "msg") "sender"); (EName "_to"); (EName "_value"); (EName "_data")] [])].
(* contracts/irc_token/irc_token.py:94-113 *)
Definition meth_IRCToken__transfer : fundef :=
  FunDef "_transfer" [("self", None); ("_from", None); ("_to", None); ("_value", None); ("_data", None)] []
  [SIf (ECompare (EName "_value") [(CLt, (EInt 0))])
    [SExpr (ECall (EName "revert") [(EStr "Transferring value cannot be less than zero")] [])]
    [];
   SIf (ECompare (ESub (EAttr (EName "self") "_balances") (EName "_from")) [(CLt, (EName "_value"))])
    [SExpr (ECall (EName "revert") [(EStr "Out of balance")] [])]
    [];
   SAssign [(ESub (EAttr (EName "self") "_balances") (EName "_from"))] (EBin BSub (ESub (EAttr (EName "self") "_balances") (EName "_from")) (EName "_value"));
   SAssign [(ESub (EAttr (EName "self") "_balances") (EName "_to"))] (EBin BAdd (ESub (EAttr (EName "self") "_balances") (EName "_to")) (EName "_value"));
   SIf (EAttr (EName "_to") "is_contract")
    [SAssign [(EName "recipient_score")] (ECall (EAttr (EName "self") "create_interface_score") [(EName "_to"); (EName "TokenFallbackInterface")] []);
     SExpr (ECall (EAttr (EName "recipient_score") "tokenFallback") [(EName "_from"); (EName "_value"); (EName "_data")] [])]
    [];
   SExpr (ECall (EAttr (EName "self") "Transfer") [(EName "_from"); (EName "_to"); (EName "_value"); (EName "_data")] []);
   SExpr (ECall (EAttr (EName "Logger") "debug") [EFString; (EName "TAG")] [])].
(* contracts/irc_token/irc_token.py:29-113 *)
Definition class_IRCToken : classdef :=
  ClassDef "IRCToken" [(EName "IconScoreBase"); (EName "ABCIRCToken")]
  [SAssign [(EName "_NAME")] (EStr "name");
   SAssign [(EName "_SYMBOL")] (EStr "symbol");
   SAssign [(EName "_BALANCES")] (EStr "balances");
   SAssign [(EName "_TOTAL_SUPPLY")] (EStr "total_supply");
   SAssign [(EName "_DECIMALS")] (EStr "decimals")]
  [meth_IRCToken_Transfer; meth_IRCToken___init__; meth_IRCToken_on_install; meth_IRCToken_on_update; meth_IRCToken_name; meth_IRCToken_symbol; meth_IRCToken_decimals; meth_IRCToken_totalSupply; meth_IRCToken_balanceOf; meth_IRCToken_transfer; meth_IRCToken__transfer].
(* contracts/irc_token/irc_token.py *)
Definition mod_irc_token_irc_token : module := PyModule "irc_token.irc_token" ["iconservice"]
  [("ABCIRCToken", ("interfaces.abc_irc_token", "ABCIRCToken"))]
  [("TAG", (EStr "IRCToken"))]
  []
  [class_TokenFallbackInterface; class_IRCToken].

(* contracts/icx_token/icx_token.py:29-30 *)
Definition meth_IcxToken_Issuance : fundef :=
  FunDef "Issuance" [("self", None); ("_amount", None)] [(EName "eventlog")]
  [SPass].
(* contracts/icx_token/icx_token.py:33-34 *)
Definition meth_IcxToken_Destruction : fundef :=
  FunDef "Destruction" [("self", None); ("_amount", None)] [(EName "eventlog")]
  [SPass].
(* contracts/icx_token/icx_token.py:36-37 *)
Definition meth_IcxToken___init__ : fundef :=
  FunDef "__init__" [("self", None); ("db", None)] []
  [SExpr (ECall (EAttr (ECall (EName "super") [] []) "__init__") [(EName "db")] [])].
(* contracts/icx_token/icx_token.py:39-41 *)
Definition meth_IcxToken_on_install : fundef :=
  FunDef "on_install" [("self", None)] []
  [SExpr (ECall (EAttr (EName "IRCToken") "on_install") [(EName "self"); (EStr "ICX Token"); (EStr "ICXT"); (EInt 0); (EInt 18)] []);
   SExpr (ECall (EAttr (EName "TokenHolder") "on_install") [(EName "self")] [])].
(* contracts/icx_token/icx_token.py:43-45 *)
Definition meth_IcxToken_on_update : fundef :=
  FunDef "on_update" [("self", None)] []
  [SExpr (ECall (EAttr (EName "IRCToken") "on_update") [(EName "self")] []);
   SExpr (ECall (EAttr (EName "TokenHolder") "on_update") [(EName "self")] [])].
(* contracts/icx_token/icx_token.py:48-49 *)
Definition meth_IcxToken_fallback : fundef :=
  FunDef "fallback" [("self", None)] [(EName "payable")]
  [SExpr (ECall (EAttr (EName "self") "deposit") [] [])].
(* contracts/icx_token/icx_token.py:53-59 *)
Definition meth_IcxToken_deposit : fundef :=
  FunDef "deposit" [("self", None)] [(EName "payable"); (EName "external")]
  [SAug (ESub (EAttr (EName "self") "_balances") (EAttr (EAttr (EName "self") "msg") "sender")) BAdd (EAttr (EAttr (EName "self") "msg") "value");
   SAssign [(EName "total_supply")] (ECall (EAttr (EAttr (EName "self") "_total_supply") "get") [] []);
   SExpr (ECall (EAttr (EAttr (EName "self") "_total_supply") "set") [(EBin BAdd (EName "total_supply") (EAttr (EAttr (EName "self") "msg") "value"))] []);
   SExpr (ECall (EAttr (EName "self") "Issuance") [(EAttr (EAttr (EName "self") "msg") "value")] []);
   SExpr (ECall (EAttr (EName "self") "Transfer") [(EAttr (EName "self") "address"); (EAttr (EAttr (EName "self") "msg") "sender"); (EAttr (EAttr (EName "self") "msg") "value"); (EBytes "None")] [])].
(* contracts/icx_token/icx_token.py:62-63 *)
Definition meth_IcxToken_withdraw : fundef :=
  FunDef "withdraw" [("self", None); ("_amount", None)] [(EName "external")]
  [SExpr (ECall (EAttr (EName "self") "withdrawTo") [(EName "_amount"); (EAttr (EAttr (EName "self") "msg") "sender")] [])].
(* contracts/icx_token/icx_token.py:66-76 *)
Definition meth_IcxToken_withdrawTo : fundef :=
  FunDef "withdrawTo" [("self", None); ("_amount", None); ("_to", None)] [(EName "external")]
  [SExpr (ECall (EName "require_positive_value") [(EName "_amount")] []);
   SIf (ECompare (ESub (EAttr (EName "self") "_balances") (EAttr (EAttr (EName "self") "msg") "sender")) [(CLt, (EName "_amount"))])
    [SExpr (ECall (EName "revert") [(EStr "Out of balance")] [])]
    [];
   SAug (ESub (EAttr (EName "self") "_balances") (EAttr (EAttr (EName "self") "msg") "sender")) BSub (EName "_amount");
   SAssign [(EName "total_supply")] (ECall (EAttr (EAttr (EName "self") "_total_supply") "get") [] []);
   SExpr (ECall (EAttr (EAttr (EName "self") "_total_supply") "set") [(EBin BSub (EName "total_supply") (EName "_amount"))] []);
   SExpr (ECall (EAttr (EAttr (EName "self") "icx") "transfer") [(EName "_to"); (EName "_amount")] []);
   SExpr (ECall (EAttr (EName "self") "Destruction") [(EName "_amount")] [])].
(* contracts/icx_token/icx_token.py:79-81 *)
Definition meth_IcxToken_transfer : fundef :=
  FunDef "transfer" [("self", None); ("_to", None); ("_value", None); ("_data", Some ENone)] [(EName "external")]
  [SExpr (ECall (EName "require_not_this") [(EAttr (EName "self") "address"); (EName "_to")] []);
   SExpr (ECall (EAttr (EName "IRCToken") "transfer") [(EName "self"); (EName "_to"); (EName "_value"); (EName "_data")] [])].
(* contracts/icx_token/icx_token.py:26-81 *)
Definition class_IcxToken : classdef :=
  ClassDef "IcxToken" [(EName "IRCToken"); (EName "TokenHolder"); (EName "ABCIcxToken")]
  []
  [meth_IcxToken_Issuance; meth_IcxToken_Destruction; meth_IcxToken___init__; meth_IcxToken_on_install; meth_IcxToken_on_update; meth_IcxToken_fallback; meth_IcxToken_deposit; meth_IcxToken_withdraw; meth_IcxToken_withdrawTo; meth_IcxToken_transfer].
(* contracts/icx_token/icx_token.py *)
Definition mod_icx_token_icx_token : module := PyModule "icx_token.icx_token" ["utility.utils"]
  [("ABCIcxToken", ("interfaces.abc_icx_token", "ABCIcxToken")); ("IRCToken", ("irc_token.irc_token", "IRCToken")); ("TokenHolder", ("utility.token_holder", "TokenHolder"))]
  [("TAG", (EStr "IcxToken"))]
  []
  [class_IcxToken].

(* contracts/flexible_token/flexible_token.py:30-31 *)
Definition meth_FlexibleToken_NewFlexibleToken : fundef :=
  FunDef "NewFlexibleToken" [("self", None); ("_token", None)] [(EName "eventlog")]
  [SPass].
(* contracts/flexible_token/flexible_token.py:34-35 *)
Definition meth_FlexibleToken_Issuance : fundef :=
  FunDef "Issuance" [("self", None); ("_amount", None)] [(EName "eventlog")]
  [SPass].
(* contracts/flexible_token/flexible_token.py:38-39 *)
Definition meth_FlexibleToken_Destruction : fundef :=
  FunDef "Destruction" [("self", None); ("_amount", None)] [(EName "eventlog")]
  [SPass].
(* contracts/flexible_token/flexible_token.py:41-44 *)
Definition meth_FlexibleToken___init__ : fundef :=
  FunDef "__init__" [("self", None); ("db", None)] []
  [SExpr (ECall (EAttr (ECall (EName "super") [] []) "__init__") [(EName "db")] []);
   SAssign [(EAttr (EName "self") "_version")] (ECall (EName "VarDB") [(EStr "version"); (EName "db")] [("value_type", (EName "str"))]);
   SAssign [(EAttr (EName "self") "_transfer_possibility")] (ECall (EName "VarDB") [(EStr "transfer_possibility"); (EName "db")] [("value_type", (EName "bool"))])].
(* contracts/flexible_token/flexible_token.py:46-53 *)
Definition meth_FlexibleToken_on_install : fundef :=
  FunDef "on_install" [("self", None); ("_name", None); ("_symbol", None); ("_initialSupply", None); ("_decimals", None)] []
  [SExpr (ECall (EAttr (EName "IRCToken") "on_install") [(EName "self"); (EName "_name"); (EName "_symbol"); (EName "_initialSupply"); (EName "_decimals")] []);
   SExpr (ECall (EAttr (EName "TokenHolder") "on_install") [(EName "self")] []);
   SExpr (ECall (EAttr (EAttr (EName "self") "_version") "set") [(EAttr (EName "self") "_VERSION")] []);
   SExpr (ECall (EAttr (EAttr (EName "self") "_transfer_possibility") "set") [(EBool true)] []);
   SExpr (ECall (EAttr (EName "self") "NewFlexibleToken") [(EAttr (EName "self") "address")] [])].
(* contracts/flexible_token/flexible_token.py:55-57 *)
Definition meth_FlexibleToken_on_update : fundef :=
  FunDef "on_update" [("self", None)] []
  [SExpr (ECall (EAttr (EName "IRCToken") "on_update") [(EName "self")] []);
   SExpr (ECall (EAttr (EName "TokenHolder") "on_update") [(EName "self")] [])].
(* contracts/flexible_token/flexible_token.py:59-60 *)
Definition meth_FlexibleToken_require_transfer_allowed : fundef :=
  FunDef "require_transfer_allowed" [("self", None)] []
  [SExpr (ECall (EName "require") [(ECall (EAttr (EAttr (EName "self") "_transfer_possibility") "get") [] []); (EStr "This flexible token cannot transfer")] [])].
(* contracts/flexible_token/flexible_token.py:63-65 *)
Definition meth_FlexibleToken_disableTransfer : fundef :=
  FunDef "disableTransfer" [("self", None); ("_disable", None)] [(EName "external")]
  [SExpr (ECall (EAttr (EName "self") "require_owner_only") [] []);
   SExpr (ECall (EAttr (EAttr (EName "self") "_transfer_possibility") "set") [(ENot (EName "_disable"))] [])].
(* contracts/flexible_token/flexible_token.py:68-69 *)
Definition meth_FlexibleToken_getFlexibleTokenVersion : fundef :=
  FunDef "getFlexibleTokenVersion" [("self", None)] [(ECall (EName "external") [] [("readonly", (EBool true))])]
  [SReturn (Some (ECall (EAttr (EAttr (EName "self") "_version") "get") [] []))].
(* contracts/flexible_token/flexible_token.py:72-73 *)
Definition meth_FlexibleToken_getTransferPossibility : fundef :=
  FunDef "getTransferPossibility" [("self", None)] [(ECall (EName "external") [] [("readonly", (EBool true))])]
  [SReturn (Some (ECall (EAttr (EAttr (EName "self") "_transfer_possibility") "get") [] []))].
(* contracts/flexible_token/flexible_token.py:76-87 *)
Definition meth_FlexibleToken_issue : fundef :=
  FunDef "issue" [("self", None); ("_to", None); ("_amount", None)] [(EName "external")]
  [SExpr (ECall (EName "require_positive_value") [(EName "_amount")] []);
   SExpr (ECall (EAttr (EName "self") "require_owner_only") [] []);
   SExpr (ECall (EName "require_valid_address") [(EName "_to")] []);
   SExpr (ECall (EName "require_not_this") [(EAttr (EName "self") "address"); (EName "_to")] []);
   SAug (ESub (EAttr (EName "self") "_balances") (EName "_to")) BAdd (EName "_amount");
   SAssign [(EName "total_supply")] (ECall (EAttr (EAttr (EName "self") "_total_supply") "get") [] []);
   SExpr (ECall (EAttr (EAttr (EName "self") "_total_supply") "set") [(EBin BAdd (EName "total_supply") (EName "_amount"))] []);
   SExpr (ECall (EAttr (EName "self") "Issuance") [(EName "_amount")] []);
   SExpr (ECall (EAttr (EName "self") "Transfer") [(EAttr (EName "self") "address"); (EName "_to"); (EName "_amount"); (EBytes "None")] [])].
(* contracts/flexible_token/flexible_token.py:90-101 *)
Definition meth_FlexibleToken_destroy : fundef :=
  FunDef "destroy" [("self", None); ("_from", None); ("_amount", None)] [(EName "external")]
  [SExpr (ECall (EName "require_positive_value") [(EName "_amount")] []);
   SExpr (ECall (EName "require") [(ECompare (ESub (EAttr (EName "self") "_balances") (EName "_from")) [(CGe, (EName "_amount"))]); (EStr "Out of balance")] []);
   SExpr (ECall (EName "require") [(EOrL [(ECompare (EAttr (EAttr (EName "self") "msg") "sender") [(CEq, (EName "_from"))]); (ECompare (EAttr (EAttr (EName "self") "msg") "sender") [(CEq, (ECall (EAttr (EAttr (EName "self") "_owner") "get") [] []))])]); (EStr "You are not token holder or flexible token owner")] []);
   SAug (ESub (EAttr (EName "self") "_balances") (EName "_from")) BSub (EName "_amount");
   SAssign [(EName "total_supply")] (ECall (EAttr (EAttr (EName "self") "_total_supply") "get") [] []);
   SExpr (ECall (EAttr (EAttr (EName "self") "_total_supply") "set") [(EBin BSub (EName "total_supply") (EName "_amount"))] []);
   SExpr (ECall (EAttr (EName "self") "Destruction") [(EName "_amount")] []);
   SExpr (ECall (EAttr (EName "self") "Transfer") [(EName "_from"); (EAttr (EName "self") "address"); (EName "_amount"); (EBytes "None")] [])].
(* contracts/flexible_token/flexible_token.py:104-106 *)
Definition meth_FlexibleToken_transfer : fundef :=
  FunDef "transfer" [("self", None); ("_to", None); ("_value", None); ("_data", Some ENone)] [(EName "external")]
  [SExpr (ECall (EAttr (EName "self") "require_transfer_allowed") [] []);
   SExpr (ECall (EAttr (EName "IRCToken") "transfer") [(EName "self"); (EName "_to"); (EName "_value"); (EName "_data")] [])].
(* contracts/flexible_token/flexible_token.py:26-106 *)
Definition class_FlexibleToken : classdef :=
  ClassDef "FlexibleToken" [(EName "IRCToken"); (EName "TokenHolder"); (EName "ABCFlexibleToken")]
  [SAssign [(EName "_VERSION")] (EStr "0.1")]
  [meth_FlexibleToken_NewFlexibleToken; meth_FlexibleToken_Issuance; meth_FlexibleToken_Destruction; meth_FlexibleToken___init__; meth_FlexibleToken_on_install; meth_FlexibleToken_on_update; meth_FlexibleToken_require_transfer_allowed; meth_FlexibleToken_disableTransfer; meth_FlexibleToken_getFlexibleTokenVersion; meth_FlexibleToken_getTransferPossibility; meth_FlexibleToken_issue; meth_FlexibleToken_destroy; meth_FlexibleToken_transfer].
(* contracts/flexible_token/flexible_token.py *)
Definition mod_flexible_token_flexible_token : module := PyModule "flexible_token.flexible_token" ["utility.utils"]
  [("ABCFlexibleToken", ("interfaces.abc_flexible_token", "ABCFlexibleToken")); ("IRCToken", ("irc_token.irc_token", "IRCToken")); ("TokenHolder", ("utility.token_holder", "TokenHolder"))]
  [("TAG", (EStr "FlexibleToken"))]
  []
  [class_FlexibleToken].

(* contracts/score_registry/score_registry.py:28-29 *)
Definition meth_ScoreRegistry_AddressUpdate : fundef :=
  FunDef "AddressUpdate" [("self", None); ("_contractName", None); ("_scoreAddress", None)] [(ECall (EName "eventlog") [] [("indexed", (EInt 1))])]
  [SPass].
(* contracts/score_registry/score_registry.py:31-33 *)
Definition meth_ScoreRegistry___init__ : fundef :=
  FunDef "__init__" [("self", None); ("db", None)] []
  [SExpr (ECall (EAttr (ECall (EName "super") [] []) "__init__") [(EName "db")] []);
   SAssign [(EAttr (EName "self") "_score_address")] (ECall (EName "DictDB") [(EStr "score_address"); (EName "db")] [("value_type", (EName "Address"))])].
(* contracts/score_registry/score_registry.py:35-37 *)
Definition meth_ScoreRegistry_on_install : fundef :=
  FunDef "on_install" [("self", None)] []
  [SExpr (ECall (EAttr (EName "Owned") "on_install") [(EName "self")] []);
   SExpr (ECall (EAttr (EName "self") "registerAddress") [(EAttr (EName "self") "SCORE_REGISTRY"); (EAttr (EName "self") "address")] [])].
(* contracts/score_registry/score_registry.py:39-40 *)
Definition meth_ScoreRegistry_on_update : fundef :=
  FunDef "on_update" [("self", None)] []
  [SExpr (ECall (EAttr (EName "Owned") "on_update") [(EName "self")] [])].
(* contracts/score_registry/score_registry.py:43-47 *)
Definition meth_ScoreRegistry_getAddress : fundef :=
  FunDef "getAddress" [("self", None); ("_scoreName", None)] [(ECall (EName "external") [] [("readonly", (EBool true))])]
  [SIf (ECompare (ESub (EAttr (EName "self") "_score_address") (EName "_scoreName")) [(CIs, ENone)])
    [SReturn (Some (EName "ZERO_SCORE_ADDRESS"))]
    [SReturn (Some (ESub (EAttr (EName "self") "_score_address") (EName "_scoreName")))]].
(* contracts/score_registry/score_registry.py:50-51 *)
Definition meth_ScoreRegistry_getScoreIds : fundef :=
  FunDef "getScoreIds" [("self", None)] [(ECall (EName "external") [] [("readonly", (EBool true))])]
  [SReturn (Some (EAttr (EName "self") "SCORE_KEYS"))].
(* contracts/score_registry/score_registry.py:54-61 *)
Definition meth_ScoreRegistry_registerAddress : fundef :=
  FunDef "registerAddress" [("self", None); ("_scoreName", None); ("_scoreAddress", None)] [(EName "external")]
  [SExpr (ECall (EAttr (EName "self") "require_owner_only") [] []);
   SExpr (ECall (EName "require_valid_address") [(EName "_scoreAddress")] []);
   SExpr (ECall (EName "require") [(EAttr (EName "_scoreAddress") "is_contract"); (EStr "only SCORE address can be registered")] []);
   SExpr (ECall (EName "require") [(ECompare (EName "_scoreName") [(CIn, (EAttr (EName "self") "SCORE_KEYS"))]); EFString] []);
   SAssign [(ESub (EAttr (EName "self") "_score_address") (EName "_scoreName"))] (EName "_scoreAddress");
   SExpr (ECall (EAttr (EName "self") "AddressUpdate") [(EName "_scoreName"); (EName "_scoreAddress")] [])].
(* contracts/score_registry/score_registry.py:64-69 *)
Definition meth_ScoreRegistry_unregisterAddress : fundef :=
  FunDef "unregisterAddress" [("self", None); ("_scoreName", None)] [(EName "external")]
  [SExpr (ECall (EAttr (EName "self") "require_owner_only") [] []);
   SExpr (ECall (EName "require") [(ECompare (ESub (EAttr (EName "self") "_score_address") (EName "_scoreName")) [(CIsNot, ENone)]); (EStr "this score is not registered")] []);
   SDel (ESub (EAttr (EName "self") "_score_address") (EName "_scoreName"));
   SExpr (ECall (EAttr (EName "self") "AddressUpdate") [(EName "_scoreName"); (EName "ZERO_SCORE_ADDRESS")] [])].
(* contracts/score_registry/score_registry.py:25-69 *)
Definition class_ScoreRegistry : classdef :=
  ClassDef "ScoreRegistry" [(EName "Owned"); (EName "ABCScoreRegistry")]
  []
  [meth_ScoreRegistry_AddressUpdate; meth_ScoreRegistry___init__; meth_ScoreRegistry_on_install; meth_ScoreRegistry_on_update; meth_ScoreRegistry_getAddress; meth_ScoreRegistry_getScoreIds; meth_ScoreRegistry_registerAddress; meth_ScoreRegistry_unregisterAddress].
(* contracts/score_registry/score_registry.py *)
Definition mod_score_registry_score_registry : module := PyModule "score_registry.score_registry" ["utility.utils"]
  [("ABCScoreRegistry", ("interfaces.abc_score_registry", "ABCScoreRegistry")); ("Owned", ("utility.owned", "Owned"))]
  [("TAG", (EStr "ScoreRegistry"))]
  []
  [class_ScoreRegistry].

(* contracts/formula/__init__.py *)
Definition mod_formula : module := PyModule "formula" []
  [("FixedMapFormula", ("formula.fixed_map_formula", "FixedMapFormula"))]
  [("formula", (ECall (EName "FixedMapFormula") [] []))]
  []
  [].

(* contracts/formula/fixed_map_formula.py:177-206 *)
Definition meth_FixedMapFormula_calculate_purchase_return : fundef :=
  FunDef "calculate_purchase_return" [("self", None); ("supply", None); ("connector_balance", None); ("connector_weight", None); ("deposit_amount", None)] []
  [SExpr (ECall (EName "require") [(EAndL [(ECompare (EName "supply") [(CGt, (EInt 0))]); (ECompare (EName "connector_balance") [(CGt, (EInt 0))]); (ECompare (EAttr (EName "self") "_MAX_WEIGHT") [(CGe, (EName "connector_weight")); (CGt, (EInt 0))])]); (EStr "Invalid input")] []);
   SIf (ECompare (EName "deposit_amount") [(CEq, (EInt 0))])
    [SReturn (Some (EInt 0))]
    [];
   SIf (ECompare (EName "connector_weight") [(CEq, (EAttr (EName "self") "_MAX_WEIGHT"))])
    [SReturn (Some (EBin BFloorDiv (EBin BMul (EName "supply") (EName "deposit_amount")) (EName "connector_balance")))]
    [];
   SAssign [(EName "base_n")] (EBin BAdd (EName "deposit_amount") (EName "connector_balance"));
   SAssign [(ETupleL [(EName "result"); (EName "precision")])] (ECall (EAttr (EName "self") "_power") [(EName "base_n"); (EName "connector_balance"); (EName "connector_weight"); (EAttr (EName "self") "_MAX_WEIGHT")] []);
   SAssign [(EName "temp")] (EBin BShr (EBin BMul (EName "supply") (EName "result")) (EName "precision"));
   SReturn (Some (EBin BSub (EName "temp") (EName "supply")))].
(* contracts/formula/fixed_map_formula.py:208-244 *)
Definition meth_FixedMapFormula_calculate_sale_return : fundef :=
  FunDef "calculate_sale_return" [("self", None); ("supply", None); ("connector_balance", None); ("connector_weight", None); ("sell_amount", None)] []
  [SExpr (ECall (EName "require") [(EAndL [(ECompare (EName "supply") [(CGt, (EInt 0))]); (ECompare (EName "connector_balance") [(CGt, (EInt 0))]); (ECompare (EAttr (EName "self") "_MAX_WEIGHT") [(CGe, (EName "connector_weight")); (CGt, (EInt 0))]); (ECompare (EName "sell_amount") [(CLe, (EName "supply"))])]); (EStr "Invalid input")] []);
   SIf (ECompare (EName "sell_amount") [(CEq, (EInt 0))])
    [SReturn (Some (EInt 0))]
    [];
   SIf (ECompare (EName "sell_amount") [(CEq, (EName "supply"))])
    [SReturn (Some (EName "connector_balance"))]
    [];
   SIf (ECompare (EName "connector_weight") [(CEq, (EAttr (EName "self") "_MAX_WEIGHT"))])
    [SReturn (Some (EBin BFloorDiv (EBin BMul (EName "connector_balance") (EName "sell_amount")) (EName "supply")))]
    [];
   SAssign [(EName "base_d")] (EBin BSub (EName "supply") (EName "sell_amount"));
   SAssign [(ETupleL [(EName "result"); (EName "precision")])] (ECall (EAttr (EName "self") "_power") [(EName "supply"); (EName "base_d"); (EAttr (EName "self") "_MAX_WEIGHT"); (EName "connector_weight")] []);
   SAssign [(EName "temp_1")] (EBin BMul (EName "connector_balance") (EName "result"));
   SAssign [(EName "temp_2")] (EBin BShl (EName "connector_balance") (EName "precision"));
   SReturn (Some (EBin BFloorDiv (EBin BSub (EName "temp_1") (EName "temp_2")) (EName "result")))].
(* contracts/formula/fixed_map_formula.py:246-278 *)
Definition meth_FixedMapFormula_calculate_cross_connector_return : fundef :=
  FunDef "calculate_cross_connector_return" [("self", None); ("from_connector_balance", None); ("from_connector_weight", None); ("to_connector_balance", None); ("to_connector_weight", None); ("amount", None)] []
  [SExpr (ECall (EName "require") [(EAndL [(ECompare (EName "from_connector_balance") [(CGt, (EInt 0))]); (ECompare (EAttr (EName "self") "_MAX_WEIGHT") [(CGe, (EName "from_connector_weight")); (CGt, (EInt 0))]); (ECompare (EName "to_connector_balance") [(CGt, (EInt 0))]); (ECompare (EAttr (EName "self") "_MAX_WEIGHT") [(CGe, (EName "to_connector_weight")); (CGt, (EInt 0))])]); (EStr "Invalid input")] []);
   SIf (ECompare (EName "from_connector_weight") [(CEq, (EName "to_connector_weight"))])
    [SReturn (Some (EBin BFloorDiv (EBin BMul (EName "to_connector_balance") (EName "amount")) (EBin BAdd (EName "from_connector_balance") (EName "amount"))))]
    [];
   SAssign [(EName "base_n")] (EBin BAdd (EName "from_connector_balance") (EName "amount"));
   SAssign [(ETupleL [(EName "result"); (EName "precision")])] (ECall (EAttr (EName "self") "_power") [(EName "base_n"); (EName "from_connector_balance"); (EName "from_connector_weight"); (EName "to_connector_weight")] []);
   SAssign [(EName "temp_1")] (EBin BMul (EName "to_connector_balance") (EName "result"));
   SAssign [(EName "temp_2")] (EBin BShl (EName "to_connector_balance") (EName "precision"));
   SReturn (Some (EBin BFloorDiv (EBin BSub (EName "temp_1") (EName "temp_2")) (EName "result")))].
(* contracts/formula/fixed_map_formula.py:280-317 *)
Definition meth_FixedMapFormula__power : fundef :=
  FunDef "_power" [("self", None); ("base_n", None); ("base_d", None); ("exp_n", None); ("exp_d", None)] []
  [SExpr (ECall (EName "require") [(ECompare (EName "base_n") [(CLt, (EAttr (EName "self") "_MAX_NUM"))]); (EStr "Invalid input")] []);
   SAssign [(EName "base")] (EBin BFloorDiv (EBin BMul (EName "base_n") (EAttr (EName "self") "_FIXED_1")) (EName "base_d"));
   SIf (ECompare (EName "base") [(CLt, (EAttr (EName "self") "_OPT_LOG_MAX_VAL"))])
    [SAssign [(EName "base_log")] (ECall (EAttr (EName "self") "_optimal_log") [(EName "base")] [])]
    [SAssign [(EName "base_log")] (ECall (EAttr (EName "self") "_general_log") [(EName "base")] [])];
   SAssign [(EName "base_log_times_exp")] (EBin BFloorDiv (EBin BMul (EName "base_log") (EName "exp_n")) (EName "exp_d"));
   SIf (ECompare (EName "base_log_times_exp") [(CLt, (EAttr (EName "self") "_OPT_EXP_MAX_VAL"))])
    [SReturn (Some (ETupleL [(ECall (EAttr (EName "self") "_optimal_exp") [(EName "base_log_times_exp")] []); (EAttr (EName "self") "_MAX_PRECISION")]))]
    [SAssign [(EName "precision")] (ECall (EAttr (EName "self") "_find_position_in_max_exp_array") [(EName "base_log_times_exp")] []);
     SReturn (Some (ETupleL [(ECall (EAttr (EName "self") "_general_exp") [(EBin BShr (EName "base_log_times_exp") (EBin BSub (EAttr (EName "self") "_MAX_PRECISION") (EName "precision"))); (EName "precision")] []); (EName "precision")]))]].
(* contracts/formula/fixed_map_formula.py:319-345 *)
Definition meth_FixedMapFormula__general_log : fundef :=
  FunDef "_general_log" [("self", None); ("x", None)] []
  [SAssign [(EName "res")] (EInt 0);
   SIf (ECompare (EName "x") [(CGe, (EAttr (EName "self") "_FIXED_2"))])
    [SAssign [(EName "count")] (ECall (EAttr (EName "self") "_floor_log2") [(EBin BFloorDiv (EName "x") (EAttr (EName "self") "_FIXED_1"))] []);
     SAug (EName "x") BShr (EName "count");
     SAssign [(EName "res")] (EBin BMul (EName "count") (EAttr (EName "self") "_FIXED_1"))]
    [];
   SIf (ECompare (EName "x") [(CGt, (EAttr (EName "self") "_FIXED_1"))])
    [SFor "i" (ECall (EName "range") [(EAttr (EName "self") "_MAX_PRECISION"); (EInt 0); (ENeg (EInt 1))] [])
      [SAssign [(EName "x")] (EBin BFloorDiv (EBin BMul (EName "x") (EName "x")) (EAttr (EName "self") "_FIXED_1"));
       SIf (ECompare (EName "x") [(CGe, (EAttr (EName "self") "_FIXED_2"))])
        [SAug (EName "x") BShr (EInt 1);
         SAug (EName "res") BAdd (EBin BShl (EAttr (EName "self") "_ONE") (EBin BSub (EName "i") (EInt 1)))]
        []]]
    [];
   SReturn (Some (EBin BFloorDiv (EBin BMul (EName "res") (EAttr (EName "self") "_LN2_NUMERATOR")) (EAttr (EName "self") "_LN2_DENOMINATOR")))].
(* contracts/formula/fixed_map_formula.py:347-368 *)
Definition meth_FixedMapFormula__floor_log2 : fundef :=
  FunDef "_floor_log2" [("self", None); ("n", None)] []
  [SAssign [(EName "res")] (EInt 0);
   SIf (ECompare (EName "n") [(CLt, (EInt 256))])
    [SWhile (ECompare (EName "n") [(CGt, (EInt 1))])
      [SAug (EName "n") BShr (EInt 1);
       SAug (EName "res") BAdd (EInt 1)]]
    [SAssign [(EName "s")] (EInt 128);
     SWhile (ECompare (EName "s") [(CGt, (EInt 0))])
      [SIf (ECompare (EName "n") [(CGe, (EBin BShl (EAttr (EName "self") "_ONE") (EName "s")))])
        [SAug (EName "n") BShr (EName "s");
         SAug (EName "res") BOr (EName "s")]
        [];
       SAug (EName "s") BShr (EInt 1)]];
   SReturn (Some (EName "res"))].
(* contracts/formula/fixed_map_formula.py:370-394 *)
Definition meth_FixedMapFormula__find_position_in_max_exp_array : fundef :=
  FunDef "_find_position_in_max_exp_array" [("self", None); ("x", None)] []
  [SAssign [(EName "lo")] (EAttr (EName "self") "_MIN_PRECISION");
   SAssign [(EName "hi")] (EAttr (EName "self") "_MAX_PRECISION");
   SWhile (ECompare (EBin BAdd (EName "lo") (EInt 1)) [(CLt, (EName "hi"))])
    [SAssign [(EName "mid")] (EBin BFloorDiv (EBin BAdd (EName "lo") (EName "hi")) (EInt 2));
     SIf (ECompare (ESub (EAttr (EName "self") "_max_exp_array") (EName "mid")) [(CGe, (EName "x"))])
      [SAssign [(EName "lo")] (EName "mid")]
      [SAssign [(EName "hi")] (EName "mid")]];
   SIf (ECompare (ESub (EAttr (EName "self") "_max_exp_array") (EName "hi")) [(CGe, (EName "x"))])
    [SReturn (Some (EName "hi"))]
    [];
   SIf (ECompare (ESub (EAttr (EName "self") "_max_exp_array") (EName "lo")) [(CGe, (EName "x"))])
    [SReturn (Some (EName "lo"))]
    [];
   SReturn (Some (EInt 0))].
(* contracts/formula/fixed_map_formula.py:396-508 *)
Definition meth_FixedMapFormula__general_exp : fundef :=
  FunDef "_general_exp" [("self", None); ("x", None); ("precision", None)] []
  [SAssign [(EName "xi")] (EName "x");
   SAssign [(EName "res")] (EInt 0);
   SAssign [(EName "xi")] (EBin BShr (EBin BMul (EName "xi") (EName "x")) (EName "precision"));
   SAug (EName "res") BAdd (EBin BMul (EName "xi") (EInt 4341658809405943247759097200640000000));
   SAssign [(EName "xi")] (EBin BShr (EBin BMul (EName "xi") (EName "x")) (EName "precision"));
   SAug (EName "res") BAdd (EBin BMul (EName "xi") (EInt 1447219603135314415919699066880000000));
   SAssign [(EName "xi")] (EBin BShr (EBin BMul (EName "xi") (EName "x")) (EName "precision"));
   SAug (EName "res") BAdd (EBin BMul (EName "xi") (EInt 361804900783828603979924766720000000));
   SAssign [(EName "xi")] (EBin BShr (EBin BMul (EName "xi") (EName "x")) (EName "precision"));
   SAug (EName "res") BAdd (EBin BMul (EName "xi") (EInt 72360980156765720795984953344000000));
   SAssign [(EName "xi")] (EBin BShr (EBin BMul (EName "xi") (EName "x")) (EName "precision"));
   SAug (EName "res") BAdd (EBin BMul (EName "xi") (EInt 12060163359460953465997492224000000));
   SAssign [(EName "xi")] (EBin BShr (EBin BMul (EName "xi") (EName "x")) (EName "precision"));
   SAug (EName "res") BAdd (EBin BMul (EName "xi") (EInt 1722880479922993352285356032000000));
   SAssign [(EName "xi")] (EBin BShr (EBin BMul (EName "xi") (EName "x")) (EName "precision"));
   SAug (EName "res") BAdd (EBin BMul (EName "xi") (EInt 215360059990374169035669504000000));
   SAssign [(EName "xi")] (EBin BShr (EBin BMul (EName "xi") (EName "x")) (EName "precision"));
   SAug (EName "res") BAdd (EBin BMul (EName "xi") (EInt 23928895554486018781741056000000));
   SAssign [(EName "xi")] (EBin BShr (EBin BMul (EName "xi") (EName "x")) (EName "precision"));
   SAug (EName "res") BAdd (EBin BMul (EName "xi") (EInt 2392889555448601878174105600000));
   SAssign [(EName "xi")] (EBin BShr (EBin BMul (EName "xi") (EName "x")) (EName "precision"));
   SAug (EName "res") BAdd (EBin BMul (EName "xi") (EInt 217535414131691079834009600000));
   SAssign [(EName "xi")] (EBin BShr (EBin BMul (EName "xi") (EName "x")) (EName "precision"));
   SAug (EName "res") BAdd (EBin BMul (EName "xi") (EInt 18127951177640923319500800000));
   SAssign [(EName "xi")] (EBin BShr (EBin BMul (EName "xi") (EName "x")) (EName "precision"));
   SAug (EName "res") BAdd (EBin BMul (EName "xi") (EInt 1394457782895455639961600000));
   SAssign [(EName "xi")] (EBin BShr (EBin BMul (EName "xi") (EName "x")) (EName "precision"));
   SAug (EName "res") BAdd (EBin BMul (EName "xi") (EInt 99604127349675402854400000));
   SAssign [(EName "xi")] (EBin BShr (EBin BMul (EName "xi") (EName "x")) (EName "precision"));
   SAug (EName "res") BAdd (EBin BMul (EName "xi") (EInt 6640275156645026856960000));
   SAssign [(EName "xi")] (EBin BShr (EBin BMul (EName "xi") (EName "x")) (EName "precision"));
   SAug (EName "res") BAdd (EBin BMul (EName "xi") (EInt 415017197290314178560000));
   SAssign [(EName "xi")] (EBin BShr (EBin BMul (EName "xi") (EName "x")) (EName "precision"));
   SAug (EName "res") BAdd (EBin BMul (EName "xi") (EInt 24412776311194951680000));
   SAssign [(EName "xi")] (EBin BShr (EBin BMul (EName "xi") (EName "x")) (EName "precision"));
   SAug (EName "res") BAdd (EBin BMul (EName "xi") (EInt 1356265350621941760000));
   SAssign [(EName "xi")] (EBin BShr (EBin BMul (EName "xi") (EName "x")) (EName "precision"));
   SAug (EName "res") BAdd (EBin BMul (EName "xi") (EInt 71382386874839040000));
   SAssign [(EName "xi")] (EBin BShr (EBin BMul (EName "xi") (EName "x")) (EName "precision"));
   SAug (EName "res") BAdd (EBin BMul (EName "xi") (EInt 3569119343741952000));
   SAssign [(EName "xi")] (EBin BShr (EBin BMul (EName "xi") (EName "x")) (EName "precision"));
   SAug (EName "res") BAdd (EBin BMul (EName "xi") (EInt 169958063987712000));
   SAssign [(EName "xi")] (EBin BShr (EBin BMul (EName "xi") (EName "x")) (EName "precision"));
   SAug (EName "res") BAdd (EBin BMul (EName "xi") (EInt 7725366544896000));
   SAssign [(EName "xi")] (EBin BShr (EBin BMul (EName "xi") (EName "x")) (EName "precision"));
   SAug (EName "res") BAdd (EBin BMul (EName "xi") (EInt 335885501952000));
   SAssign [(EName "xi")] (EBin BShr (EBin BMul (EName "xi") (EName "x")) (EName "precision"));
   SAug (EName "res") BAdd (EBin BMul (EName "xi") (EInt 13995229248000));
   SAssign [(EName "xi")] (EBin BShr (EBin BMul (EName "xi") (EName "x")) (EName "precision"));
   SAug (EName "res") BAdd (EBin BMul (EName "xi") (EInt 559809169920));
   SAssign [(EName "xi")] (EBin BShr (EBin BMul (EName "xi") (EName "x")) (EName "precision"));
   SAug (EName "res") BAdd (EBin BMul (EName "xi") (EInt 21531121920));
   SAssign [(EName "xi")] (EBin BShr (EBin BMul (EName "xi") (EName "x")) (EName "precision"));
   SAug (EName "res") BAdd (EBin BMul (EName "xi") (EInt 797448960));
   SAssign [(EName "xi")] (EBin BShr (EBin BMul (EName "xi") (EName "x")) (EName "precision"));
   SAug (EName "res") BAdd (EBin BMul (EName "xi") (EInt 28480320));
   SAssign [(EName "xi")] (EBin BShr (EBin BMul (EName "xi") (EName "x")) (EName "precision"));
   SAug (EName "res") BAdd (EBin BMul (EName "xi") (EInt 982080));
   SAssign [(EName "xi")] (EBin BShr (EBin BMul (EName "xi") (EName "x")) (EName "precision"));
   SAug (EName "res") BAdd (EBin BMul (EName "xi") (EInt 32736));
   SAssign [(EName "xi")] (EBin BShr (EBin BMul (EName "xi") (EName "x")) (EName "precision"));
   SAug (EName "res") BAdd (EBin BMul (EName "xi") (EInt 1056));
   SAssign [(EName "xi")] (EBin BShr (EBin BMul (EName "xi") (EName "x")) (EName "precision"));
   SAug (EName "res") BAdd (EBin BMul (EName "xi") (EInt 33));
   SAssign [(EName "xi")] (EBin BShr (EBin BMul (EName "xi") (EName "x")) (EName "precision"));
   SAug (EName "res") BAdd (EBin BMul (EName "xi") (EInt 1));
   SReturn (Some (EBin BAdd (EBin BAdd (EBin BFloorDiv (EName "res") (EInt 8683317618811886495518194401280000000)) (EName "x")) (EBin BShl (EAttr (EName "self") "_ONE") (EName "precision"))))].
(* contracts/formula/fixed_map_formula.py:510-585 *)
Definition meth_FixedMapFormula__optimal_log : fundef :=
  FunDef "_optimal_log" [("self", None); ("x", None)] []
  [SAssign [(EName "res")] (EInt 0);
   SIf (ECompare (EName "x") [(CGe, (EInt 280515388193368458015406427511040113880))])
    [SAug (EName "res") BAdd (EInt 85070591730234615865843651857942052864);
     SAssign [(EName "x")] (EBin BFloorDiv (EBin BMul (EName "x") (EAttr (EName "self") "_FIXED_1")) (EInt 280515388193368458015406427511040113880))]
    [];
   SIf (ECompare (EName "x") [(CGe, (EInt 218465603988574474844591417643679820199))])
    [SAug (EName "res") BAdd (EInt 42535295865117307932921825928971026432);
     SAssign [(EName "x")] (EBin BFloorDiv (EBin BMul (EName "x") (EAttr (EName "self") "_FIXED_1")) (EInt 218465603988574474844591417643679820199))]
    [];
   SIf (ECompare (EName "x") [(CGe, (EInt 192795218841189805222451540510555621025))])
    [SAug (EName "res") BAdd (EInt 21267647932558653966460912964485513216);
     SAssign [(EName "x")] (EBin BFloorDiv (EBin BMul (EName "x") (EAttr (EName "self") "_FIXED_1")) (EInt 192795218841189805222451540510555621025))]
    [];
   SIf (ECompare (EName "x") [(CGe, (EInt 181114347027396448854165353426875372712))])
    [SAug (EName "res") BAdd (EInt 10633823966279326983230456482242756608);
     SAssign [(EName "x")] (EBin BFloorDiv (EBin BMul (EName "x") (EAttr (EName "self") "_FIXED_1")) (EInt 181114347027396448854165353426875372712))]
    [];
   SIf (ECompare (EName "x") [(CGe, (EInt 175542044379434494067323265867529472979))])
    [SAug (EName "res") BAdd (EInt 5316911983139663491615228241121378304);
     SAssign [(EName "x")] (EBin BFloorDiv (EBin BMul (EName "x") (EAttr (EName "self") "_FIXED_1")) (EInt 175542044379434494067323265867529472979))]
    [];
   SIf (ECompare (EName "x") [(CGe, (EInt 172820517236198538127967385733353125282))])
    [SAug (EName "res") BAdd (EInt 2658455991569831745807614120560689152);
     SAssign [(EName "x")] (EBin BFloorDiv (EBin BMul (EName "x") (EAttr (EName "self") "_FIXED_1")) (EInt 172820517236198538127967385733353125282))]
    [];
   SIf (ECompare (EName "x") [(CGe, (EInt 171475617301169790829459146906809945753))])
    [SAug (EName "res") BAdd (EInt 1329227995784915872903807060280344576);
     SAssign [(EName "x")] (EBin BFloorDiv (EBin BMul (EName "x") (EAttr (EName "self") "_FIXED_1")) (EInt 171475617301169790829459146906809945753))]
    [];
   SIf (ECompare (EName "x") [(CGe, (EInt 170807097224429000759274174605493073715))])
    [SAug (EName "res") BAdd (EInt 664613997892457936451903530140172288);
     SAssign [(EName "x")] (EBin BFloorDiv (EBin BMul (EName "x") (EAttr (EName "self") "_FIXED_1")) (EInt 170807097224429000759274174605493073715))]
    [];
   SAssign [(EName "z"); (EName "y")] (EBin BSub (EName "x") (EAttr (EName "self") "_FIXED_1"));
   SAssign [(EName "w")] (EBin BFloorDiv (EBin BMul (EName "y") (EName "y")) (EAttr (EName "self") "_FIXED_1"));
   SAug (EName "res") BAdd (EBin BFloorDiv (EBin BMul (EName "z") (EBin BSub (EInt 340282366920938463463374607431768211456) (EName "y"))) (EInt 340282366920938463463374607431768211456));
   SAssign [(EName "z")] (EBin BFloorDiv (EBin BMul (EName "z") (EName "w")) (EAttr (EName "self") "_FIXED_1"));
   SAug (EName "res") BAdd (EBin BFloorDiv (EBin BMul (EName "z") (EBin BSub (EInt 226854911280625642308916404954512140970) (EName "y"))) (EInt 680564733841876926926749214863536422912));
   SAssign [(EName "z")] (EBin BFloorDiv (EBin BMul (EName "z") (EName "w")) (EAttr (EName "self") "_FIXED_1"));
   SAug (EName "res") BAdd (EBin BFloorDiv (EBin BMul (EName "z") (EBin BSub (EInt 204169420152563078078024764459060926873) (EName "y"))) (EInt 1020847100762815390390123822295304634368));
   SAssign [(EName "z")] (EBin BFloorDiv (EBin BMul (EName "z") (EName "w")) (EAttr (EName "self") "_FIXED_1"));
   SAug (EName "res") BAdd (EBin BFloorDiv (EBin BMul (EName "z") (EBin BSub (EInt 194447066811964836264785489961010406546) (EName "y"))) (EInt 1361129467683753853853498429727072845824));
   SAssign [(EName "z")] (EBin BFloorDiv (EBin BMul (EName "z") (EName "w")) (EAttr (EName "self") "_FIXED_1"));
   SAug (EName "res") BAdd (EBin BFloorDiv (EBin BMul (EName "z") (EBin BSub (EInt 189045759400521368590763670795426784142) (EName "y"))) (EInt 1701411834604692317316873037158841057280));
   SAssign [(EName "z")] (EBin BFloorDiv (EBin BMul (EName "z") (EName "w")) (EAttr (EName "self") "_FIXED_1"));
   SAug (EName "res") BAdd (EBin BFloorDiv (EBin BMul (EName "z") (EBin BSub (EInt 185608563775057343707295240417328115339) (EName "y"))) (EInt 2041694201525630780780247644590609268736));
   SAssign [(EName "z")] (EBin BFloorDiv (EBin BMul (EName "z") (EName "w")) (EAttr (EName "self") "_FIXED_1"));
   SAug (EName "res") BAdd (EBin BFloorDiv (EBin BMul (EName "z") (EBin BSub (EInt 183228966803582249557201711694029036937) (EName "y"))) (EInt 2381976568446569244243622252022377480192));
   SAssign [(EName "z")] (EBin BFloorDiv (EBin BMul (EName "z") (EName "w")) (EAttr (EName "self") "_FIXED_1"));
   SAug (EName "res") BAdd (EBin BFloorDiv (EBin BMul (EName "z") (EBin BSub (EInt 181483929024500513847133123963609712776) (EName "y"))) (EInt 2722258935367507707706996859454145691648));
   SReturn (Some (EName "res"))].
(* contracts/formula/fixed_map_formula.py:587-687 *)
Definition meth_FixedMapFormula__optimal_exp : fundef :=
  FunDef "_optimal_exp" [("self", None); ("x", None)] []
  [SAssign [(EName "res")] (EInt 0);
   SAssign [(EName "z"); (EName "y")] (EBin BMod (EName "x") (EInt 21267647932558653966460912964485513216));
   SAssign [(EName "z")] (EBin BFloorDiv (EBin BMul (EName "z") (EName "y")) (EAttr (EName "self") "_FIXED_1"));
   SAug (EName "res") BAdd (EBin BMul (EName "z") (EInt 1216451004088320000));
   SAssign [(EName "z")] (EBin BFloorDiv (EBin BMul (EName "z") (EName "y")) (EAttr (EName "self") "_FIXED_1"));
   SAug (EName "res") BAdd (EBin BMul (EName "z") (EInt 405483668029440000));
   SAssign [(EName "z")] (EBin BFloorDiv (EBin BMul (EName "z") (EName "y")) (EAttr (EName "self") "_FIXED_1"));
   SAug (EName "res") BAdd (EBin BMul (EName "z") (EInt 101370917007360000));
   SAssign [(EName "z")] (EBin BFloorDiv (EBin BMul (EName "z") (EName "y")) (EAttr (EName "self") "_FIXED_1"));
   SAug (EName "res") BAdd (EBin BMul (EName "z") (EInt 20274183401472000));
   SAssign [(EName "z")] (EBin BFloorDiv (EBin BMul (EName "z") (EName "y")) (EAttr (EName "self") "_FIXED_1"));
   SAug (EName "res") BAdd (EBin BMul (EName "z") (EInt 3379030566912000));
   SAssign [(EName "z")] (EBin BFloorDiv (EBin BMul (EName "z") (EName "y")) (EAttr (EName "self") "_FIXED_1"));
   SAug (EName "res") BAdd (EBin BMul (EName "z") (EInt 482718652416000));
   SAssign [(EName "z")] (EBin BFloorDiv (EBin BMul (EName "z") (EName "y")) (EAttr (EName "self") "_FIXED_1"));
   SAug (EName "res") BAdd (EBin BMul (EName "z") (EInt 60339831552000));
   SAssign [(EName "z")] (EBin BFloorDiv (EBin BMul (EName "z") (EName "y")) (EAttr (EName "self") "_FIXED_1"));
   SAug (EName "res") BAdd (EBin BMul (EName "z") (EInt 6704425728000));
   SAssign [(EName "z")] (EBin BFloorDiv (EBin BMul (EName "z") (EName "y")) (EAttr (EName "self") "_FIXED_1"));
   SAug (EName "res") BAdd (EBin BMul (EName "z") (EInt 670442572800));
   SAssign [(EName "z")] (EBin BFloorDiv (EBin BMul (EName "z") (EName "y")) (EAttr (EName "self") "_FIXED_1"));
   SAug (EName "res") BAdd (EBin BMul (EName "z") (EInt 60949324800));
   SAssign [(EName "z")] (EBin BFloorDiv (EBin BMul (EName "z") (EName "y")) (EAttr (EName "self") "_FIXED_1"));
   SAug (EName "res") BAdd (EBin BMul (EName "z") (EInt 5079110400));
   SAssign [(EName "z")] (EBin BFloorDiv (EBin BMul (EName "z") (EName "y")) (EAttr (EName "self") "_FIXED_1"));
   SAug (EName "res") BAdd (EBin BMul (EName "z") (EInt 390700800));
   SAssign [(EName "z")] (EBin BFloorDiv (EBin BMul (EName "z") (EName "y")) (EAttr (EName "self") "_FIXED_1"));
   SAug (EName "res") BAdd (EBin BMul (EName "z") (EInt 27907200));
   SAssign [(EName "z")] (EBin BFloorDiv (EBin BMul (EName "z") (EName "y")) (EAttr (EName "self") "_FIXED_1"));
   SAug (EName "res") BAdd (EBin BMul (EName "z") (EInt 1860480));
   SAssign [(EName "z")] (EBin BFloorDiv (EBin BMul (EName "z") (EName "y")) (EAttr (EName "self") "_FIXED_1"));
   SAug (EName "res") BAdd (EBin BMul (EName "z") (EInt 116280));
   SAssign [(EName "z")] (EBin BFloorDiv (EBin BMul (EName "z") (EName "y")) (EAttr (EName "self") "_FIXED_1"));
   SAug (EName "res") BAdd (EBin BMul (EName "z") (EInt 6840));
   SAssign [(EName "z")] (EBin BFloorDiv (EBin BMul (EName "z") (EName "y")) (EAttr (EName "self") "_FIXED_1"));
   SAug (EName "res") BAdd (EBin BMul (EName "z") (EInt 380));
   SAssign [(EName "z")] (EBin BFloorDiv (EBin BMul (EName "z") (EName "y")) (EAttr (EName "self") "_FIXED_1"));
   SAug (EName "res") BAdd (EBin BMul (EName "z") (EInt 20));
   SAssign [(EName "z")] (EBin BFloorDiv (EBin BMul (EName "z") (EName "y")) (EAttr (EName "self") "_FIXED_1"));
   SAug (EName "res") BAdd (EBin BMul (EName "z") (EInt 1));
   SAssign [(EName "res")] (EBin BAdd (EBin BAdd (EBin BFloorDiv (EName "res") (EInt 2432902008176640000)) (EName "y")) (EAttr (EName "self") "_FIXED_1"));
   SIf (ECompare (EBin BAnd (EName "x") (EInt 21267647932558653966460912964485513216)) [(CNe, (EInt 0))])
    [SAssign [(EName "res")] (EBin BFloorDiv (EBin BMul (EName "res") (EInt 600596269623765960634066700837880239609)) (EInt 530024347646835984032474664511850276726))]
    [];
   SIf (ECompare (EBin BAnd (EName "x") (EInt 42535295865117307932921825928971026432)) [(CNe, (EInt 0))])
    [SAssign [(EName "res")] (EBin BFloorDiv (EBin BMul (EName "res") (EInt 530024347646835984032474664511850276728)) (EInt 412783376994266390547521411024565284564))]
    [];
   SIf (ECompare (EBin BAnd (EName "x") (EInt 85070591730234615865843651857942052864)) [(CNe, (EInt 0))])
    [SAssign [(EName "res")] (EBin BFloorDiv (EBin BMul (EName "res") (EInt 412783376994266390547521411024565284565)) (EInt 250365773966741064234501452596301656607))]
    [];
   SIf (ECompare (EBin BAnd (EName "x") (EInt 170141183460469231731687303715884105728)) [(CNe, (EInt 0))])
    [SAssign [(EName "res")] (EBin BFloorDiv (EBin BMul (EName "res") (EInt 250365773966741064234501452596301656606)) (EInt 92104421015340344839251721785254237641))]
    [];
   SIf (ECompare (EBin BAnd (EName "x") (EInt 340282366920938463463374607431768211456)) [(CNe, (EInt 0))])
    [SAssign [(EName "res")] (EBin BFloorDiv (EBin BMul (EName "res") (EInt 92104421015340344839251721785254237637)) (EInt 12464977905455307901915658421775307242))]
    [];
   SIf (ECompare (EBin BAnd (EName "x") (EInt 680564733841876926926749214863536422912)) [(CNe, (EInt 0))])
    [SAssign [(EName "res")] (EBin BFloorDiv (EBin BMul (EName "res") (EInt 12464977905455307901915658421775307223)) (EInt 228304034072369565894155946646425149))]
    [];
   SIf (ECompare (EBin BAnd (EName "x") (EInt 1361129467683753853853498429727072845824)) [(CNe, (EInt 0))])
    [SAssign [(EName "res")] (EBin BFloorDiv (EBin BMul (EName "res") (EInt 228304034072369565894155946646422279)) (EInt 76587471230661696290698490699025))]
    [];
   SReturn (Some (EName "res"))].
(* contracts/formula/fixed_map_formula.py:26-687 *)
Definition class_FixedMapFormula : classdef :=
  ClassDef "FixedMapFormula" [(EName "ABCFormula")]
  [SAssign [(EName "_ONE")] (EInt 1);
   SAssign [(EName "_MAX_WEIGHT")] (EInt 1000000);
   SAssign [(EName "_MIN_PRECISION")] (EInt 32);
   SAssign [(EName "_MAX_PRECISION")] (EInt 127);
   SAssign [(EName "_FIXED_1")] (EInt 170141183460469231731687303715884105728);
   SAssign [(EName "_FIXED_2")] (EInt 340282366920938463463374607431768211456);
   SAssign [(EName "_MAX_NUM")] (EInt 680564733841876926926749214863536422912);
   SAssign [(EName "_LN2_NUMERATOR")] (EInt 5275695611177340518812009417546793976);
   SAssign [(EName "_LN2_DENOMINATOR")] (EInt 7611219895485218073587121647846406784);
   SAssign [(EName "_OPT_LOG_MAX_VAL")] (EInt 462491687273110168575455517921668397539);
   SAssign [(EName "_OPT_EXP_MAX_VAL")] (EInt 2722258935367507707706996859454145691648);
   SAssign [(EName "_max_exp_array")] (EBin BMul (EListL [ENone]) (EInt 128));
   SAssign [(ESub (EName "_max_exp_array") (EInt 32))] (EInt 9599678685041259184274752310158947254271);
   SAssign [(ESub (EName "_max_exp_array") (EInt 33))] (EInt 9204759687141885226475603015507577405439);
   SAssign [(ESub (EName "_max_exp_array") (EInt 34))] (EInt 8826087172077985712041017634911355404287);
   SAssign [(ESub (EName "_max_exp_array") (EInt 35))] (EInt 8462992779488582574159642900919291478015);
   SAssign [(ESub (EName "_max_exp_array") (EInt 36))] (EInt 8114835644520100661580084966409403105279);
   SAssign [(ESub (EName "_max_exp_array") (EInt 37))] (EInt 7781001266736647064069662172832600162303);
   SAssign [(ESub (EName "_max_exp_array") (EInt 38))] (EInt 7460900425488323202194551465008353509375);
   SAssign [(ESub (EName "_max_exp_array") (EInt 39))] (EInt 7153968139937914349310206877837545177087);
   SAssign [(ESub (EName "_max_exp_array") (EInt 40))] (EInt 6859662671868001546166128217910528704511);
   SAssign [(ESub (EName "_max_exp_array") (EInt 41))] (EInt 6577464569506365633454696454958677491711);
   SAssign [(ESub (EName "_max_exp_array") (EInt 42))] (EInt 6306875750689218484600399768107450630143);
   SAssign [(ESub (EName "_max_exp_array") (EInt 43))] (EInt 6047418623741353042663269283551730728959);
   SAssign [(ESub (EName "_max_exp_array") (EInt 44))] (EInt 5798635244522972732941736303310812479487);
   SAssign [(ESub (EName "_max_exp_array") (EInt 45))] (EInt 5560086508154074440893281558760167309311);
   SAssign [(ESub (EName "_max_exp_array") (EInt 46))] (EInt 5331351373990447379730864460340651884543);
   SAssign [(ESub (EName "_max_exp_array") (EInt 47))] (EInt 5112026122483163422598731111238626967551);
   SAssign [(ESub (EName "_max_exp_array") (EInt 48))] (EInt 4901723642609993464238960471454494228479);
   SAssign [(ESub (EName "_max_exp_array") (EInt 49))] (EInt 4700072748620998500994433661760029327359);
   SAssign [(ESub (EName "_max_exp_array") (EInt 50))] (EInt 4506717524892375150236886652795301658623);
   SAssign [(ESub (EName "_max_exp_array") (EInt 51))] (EInt 4321316697732212547034601541953113817087);
   SAssign [(ESub (EName "_max_exp_array") (EInt 52))] (EInt 4143543033029384782309349805264440655871);
   SAssign [(ESub (EName "_max_exp_array") (EInt 53))] (EInt 3973082758682431363936722477132055314431);
   SAssign [(ESub (EName "_max_exp_array") (EInt 54))] (EInt 3809635010789003168527049097368437784575);
   SAssign [(ESub (EName "_max_exp_array") (EInt 55))] (EInt 3652911302618395401280222488042819026943);
   SAssign [(ESub (EName "_max_exp_array") (EInt 56))] (EInt 3502635015429898674229017626613836152831);
   SAssign [(ESub (EName "_max_exp_array") (EInt 57))] (EInt 3358540910238258030536300376569398951935);
   SAssign [(ESub (EName "_max_exp_array") (EInt 58))] (EInt 3220374659664501751807634855053158776831);
   SAssign [(ESub (EName "_max_exp_array") (EInt 59))] (EInt 3087892399045852422628542596524428754943);
   SAssign [(ESub (EName "_max_exp_array") (EInt 60))] (EInt 2960860296012425255212778080756987592703);
   SAssign [(ESub (EName "_max_exp_array") (EInt 61))] (EInt 2839054137771012724926516325250418868223);
   SAssign [(ESub (EName "_max_exp_array") (EInt 62))] (EInt 2722258935367507707706996859454145691647);
   SAssign [(ESub (EName "_max_exp_array") (EInt 63))] (EInt 2610268544229484780765045556213696167935);
   SAssign [(ESub (EName "_max_exp_array") (EInt 64))] (EInt 2502885300319193958571922333378000453631);
   SAssign [(ESub (EName "_max_exp_array") (EInt 65))] (EInt 2399919671254773659805118819743970623487);
   SAssign [(ESub (EName "_max_exp_array") (EInt 66))] (EInt 2301189921783908737703717501630802821119);
   SAssign [(ESub (EName "_max_exp_array") (EInt 67))] (EInt 2206521793019491601704439134261549727743);
   SAssign [(ESub (EName "_max_exp_array") (EInt 68))] (EInt 2115748194871134515168564783402692116479);
   SAssign [(ESub (EName "_max_exp_array") (EInt 69))] (EInt 2028708911129671949307566740521183346687);
   SAssign [(ESub (EName "_max_exp_array") (EInt 70))] (EInt 1945250316684124513375052119057996185599);
   SAssign [(ESub (EName "_max_exp_array") (EInt 71))] (EInt 1865225106372009884014199587421481336831);
   SAssign [(ESub (EName "_max_exp_array") (EInt 72))] (EInt 1788492034984419117666073304513300660223);
   SAssign [(ESub (EName "_max_exp_array") (EInt 73))] (EInt 1714915667966964990208967912165996494847);
   SAssign [(ESub (EName "_max_exp_array") (EInt 74))] (EInt 1644366142376587317378242124992063995903);
   SAssign [(ESub (EName "_max_exp_array") (EInt 75))] (EInt 1576718937672301888428671268411708276735);
   SAssign [(ESub (EName "_max_exp_array") (EInt 76))] (EInt 1511854655935336643558907106913628979199);
   SAssign [(ESub (EName "_max_exp_array") (EInt 77))] (EInt 1449658811130741678082357454851673161727);
   SAssign [(ESub (EName "_max_exp_array") (EInt 78))] (EInt 1390021627038517938156314751863424548863);
   SAssign [(ESub (EName "_max_exp_array") (EInt 79))] (EInt 1332837843497611250583009129150422188031);
   SAssign [(ESub (EName "_max_exp_array") (EInt 80))] (EInt 1278006530620790610545644364558728429567);
   SAssign [(ESub (EName "_max_exp_array") (EInt 81))] (EInt 1225430910652498332846748256431392161791);
   SAssign [(ESub (EName "_max_exp_array") (EInt 82))] (EInt 1175018187155249585623915264673694351359);
   SAssign [(ESub (EName "_max_exp_array") (EInt 83))] (EInt 1126679381223093780446468558216906145791);
   SAssign [(ESub (EName "_max_exp_array") (EInt 84))] (EInt 1080329174433053119456411494679599644671);
   SAssign [(ESub (EName "_max_exp_array") (EInt 85))] (EInt 1035885758257346189907937735244580388863);
   SAssign [(ESub (EName "_max_exp_array") (EInt 86))] (EInt 993270689670607839608468400662101622783);
   SAssign [(ESub (EName "_max_exp_array") (EInt 87))] (EInt 952408752697250790372885759853747765247);
   SAssign [(ESub (EName "_max_exp_array") (EInt 88))] (EInt 913227825654598849673391073164504596479);
   SAssign [(ESub (EName "_max_exp_array") (EInt 89))] (EInt 875658753857474668265023456619450597375);
   SAssign [(ESub (EName "_max_exp_array") (EInt 90))] (EInt 839635227559564507480479102760887779327);
   SAssign [(ESub (EName "_max_exp_array") (EInt 91))] (EInt 805093664916125437948904238798044397567);
   SAssign [(ESub (EName "_max_exp_array") (EInt 92))] (EInt 771973099761463105605096142810743046143);
   SAssign [(ESub (EName "_max_exp_array") (EInt 93))] (EInt 740215074003106313787373698556008333311);
   SAssign [(ESub (EName "_max_exp_array") (EInt 94))] (EInt 709763534442753181219281418466841591807);
   SAssign [(ESub (EName "_max_exp_array") (EInt 95))] (EInt 680564733841876926926749214863536422911);
   SAssign [(ESub (EName "_max_exp_array") (EInt 96))] (EInt 652567136057371195186997586203332575231);
   SAssign [(ESub (EName "_max_exp_array") (EInt 97))] (EInt 625721325079798489641586010116704960511);
   SAssign [(ESub (EName "_max_exp_array") (EInt 98))] (EInt 599979917813693414950432886451725139967);
   SAssign [(ESub (EName "_max_exp_array") (EInt 99))] (EInt 575297480445977184425850753341355720703);
   SAssign [(ESub (EName "_max_exp_array") (EInt 100))] (EInt 551630448254872900425972804456347074559);
   SAssign [(ESub (EName "_max_exp_array") (EInt 101))] (EInt 528937048717783628792119060092411707391);
   SAssign [(ESub (EName "_max_exp_array") (EInt 102))] (EInt 507177227782417987326846600868857380863);
   SAssign [(ESub (EName "_max_exp_array") (EInt 103))] (EInt 486312579171031128343732298613950251007);
   SAssign [(ESub (EName "_max_exp_array") (EInt 104))] (EInt 466306276593002471003532891264408092671);
   SAssign [(ESub (EName "_max_exp_array") (EInt 105))] (EInt 447123008746104779416515886102660251647);
   SAssign [(ESub (EName "_max_exp_array") (EInt 106))] (EInt 428728916991741247552240490495652921343);
   SAssign [(ESub (EName "_max_exp_array") (EInt 107))] (EInt 411091535594146829344560212836376117247);
   SAssign [(ESub (EName "_max_exp_array") (EInt 108))] (EInt 394179734418075472107167272299635146751);
   SAssign [(ESub (EName "_max_exp_array") (EInt 109))] (EInt 377963663983834160889726215582593318911);
   SAssign [(ESub (EName "_max_exp_array") (EInt 110))] (EInt 362414702782685419520589203652335239167);
   SAssign [(ESub (EName "_max_exp_array") (EInt 111))] (EInt 347505406759629484539078662328460836863);
   SAssign [(ESub (EName "_max_exp_array") (EInt 112))] (EInt 333209460874402812645752271223906598911);
   SAssign [(ESub (EName "_max_exp_array") (EInt 113))] (EInt 319501632655197652636411056021540225023);
   SAssign [(ESub (EName "_max_exp_array") (EInt 114))] (EInt 306357727663124583211687061200571318271);
   SAssign [(ESub (EName "_max_exp_array") (EInt 115))] (EInt 293754546788812396405978813098581970943);
   SAssign [(ESub (EName "_max_exp_array") (EInt 116))] (EInt 281669845305773445111617137421885345791);
   SAssign [(ESub (EName "_max_exp_array") (EInt 117))] (EInt 270082293608263279864102872957453496319);
   SAssign [(ESub (EName "_max_exp_array") (EInt 118))] (EInt 258971439564336547476984432763364437503);
   SAssign [(ESub (EName "_max_exp_array") (EInt 119))] (EInt 248317672417651959902117100034610719743);
   SAssign [(ESub (EName "_max_exp_array") (EInt 120))] (EInt 238102188174312697593221439720218478079);
   SAssign [(ESub (EName "_max_exp_array") (EInt 121))] (EInt 228306956413649712418347768277622232511);
   SAssign [(ESub (EName "_max_exp_array") (EInt 122))] (EInt 218914688464368667066255864092044292831);
   SAssign [(ESub (EName "_max_exp_array") (EInt 123))] (EInt 209908806889891126870119775672831054607);
   SAssign [(ESub (EName "_max_exp_array") (EInt 124))] (EInt 201273416229031359487226059686877220919);
   SAssign [(ESub (EName "_max_exp_array") (EInt 125))] (EInt 192993274940365776401274035698589299391);
   SAssign [(ESub (EName "_max_exp_array") (EInt 126))] (EInt 185053768500776578446843424638883162041);
   SAssign [(ESub (EName "_max_exp_array") (EInt 127))] (EInt 177440883610688295304820354615089591270)]
  [meth_FixedMapFormula_calculate_purchase_return; meth_FixedMapFormula_calculate_sale_return; meth_FixedMapFormula_calculate_cross_connector_return; meth_FixedMapFormula__power; meth_FixedMapFormula__general_log; meth_FixedMapFormula__floor_log2; meth_FixedMapFormula__find_position_in_max_exp_array; meth_FixedMapFormula__general_exp; meth_FixedMapFormula__optimal_log; meth_FixedMapFormula__optimal_exp].
(* contracts/formula/fixed_map_formula.py *)
Definition mod_formula_fixed_map_formula : module := PyModule "formula.fixed_map_formula" ["iconservice"; "utility.utils"]
  [("ABCFormula", ("interfaces.abc_formula", "ABCFormula"))]
  []
  []
  [class_FixedMapFormula].

(* contracts/converter/converter.py:42-52 *)
Definition meth_Connector___init__ : fundef :=
  FunDef "__init__" [("self", None); ("db", None)] []
  [SAssign [(EAttr (EName "self") "virtual_balance")] (ECall (EName "VarDB") [(EStr "virtual_balance"); (EName "db"); (EName "int")] []);
   SAssign [(EAttr (EName "self") "weight")] (ECall (EName "VarDB") [(EStr "weight"); (EName "db"); (EName "int")] []);
   SAssign [(EAttr (EName "self") "is_virtual_balance_enabled")] (ECall (EName "VarDB") [(EStr "is_virtual_balance_enabled"); (EName "db"); (EName "bool")] []);
   SAssign [(EAttr (EName "self") "is_purchase_enabled")] (ECall (EName "VarDB") [(EStr "is_purchase_enabled"); (EName "db"); (EName "bool")] []);
   SAssign [(EAttr (EName "self") "is_set")] (ECall (EName "VarDB") [(EStr "is_set"); (EName "db"); (EName "bool")] [])].
(* contracts/converter/converter.py:37-52 *)
Definition class_Connector : classdef :=
  ClassDef "Connector" []
  []
  [meth_Connector___init__].
(* contracts/converter/converter.py:60-62 *)
Definition meth_ConnectorDict___init__ : fundef :=
  FunDef "__init__" [("self", None); ("db", None)] []
  [SAssign [(EAttr (EName "self") "_db")] (EName "db");
   SAssign [(EAttr (EName "self") "_items")] (EDictL [])].
(* contracts/converter/converter.py:64-69 *)
Definition meth_ConnectorDict___getitem__ : fundef :=
  FunDef "__getitem__" [("self", None); ("key", None)] []
  [SIf (ECompare (EName "key") [(CNotIn, (EAttr (EName "self") "_items"))])
    [SAssign [(EName "sub_db")] (ECall (EAttr (EAttr (EName "self") "_db") "get_sub_db") [(ECall (EAttr (EBytes "|") "join") [(EListL [(EName "CONNECTOR_DB_PREFIX"); (ECall (EAttr (EName "key") "to_bytes") [] [])])] [])] []);
     SAssign [(ESub (EAttr (EName "self") "_items") (EName "key"))] (ECall (EName "Connector") [(EName "sub_db")] [])]
    [];
   SReturn (Some (ESub (EAttr (EName "self") "_items") (EName "key")))].
(* contracts/converter/converter.py:71-72 *)
Definition meth_ConnectorDict___setitem__ : fundef :=
  FunDef "__setitem__" [("self", None); ("key", None); ("value", None)] []
  [SExpr (ECall (EName "revert") [(EStr "illegal access")] [])].
(* contracts/converter/converter.py:55-72 *)
Definition class_ConnectorDict : classdef :=
  ClassDef "ConnectorDict" []
  []
  [meth_ConnectorDict___init__; meth_ConnectorDict___getitem__; meth_ConnectorDict___setitem__].
(* contracts/converter/converter.py:99-106 *)
Definition meth_Converter_Conversion : fundef :=
  FunDef "Conversion" [("self", None); ("_fromToken", None); ("_toToken", None); ("_trader", None); ("_amount", None); ("_return", None); ("_conversionFee", None)] [(ECall (EName "eventlog") [] [("indexed", (EInt 3))])]
  [SPass].
(* contracts/converter/converter.py:110-115 *)
Definition meth_Converter_PriceDataUpdate : fundef :=
  FunDef "PriceDataUpdate" [("self", None); ("_connectorToken", None); ("_tokenSupply", None); ("_connectorBalance", None); ("_connectorWeight", None)] [(ECall (EName "eventlog") [] [("indexed", (EInt 1))])]
  [SPass].
(* contracts/converter/converter.py:119-120 *)
Definition meth_Converter_ConversionFeeUpdate : fundef :=
  FunDef "ConversionFeeUpdate" [("self", None); ("_prevFee", None); ("_newFee", None)] [(EName "eventlog")]
  [SPass].
(* contracts/converter/converter.py:124-125 *)
Definition meth_Converter_ConversionsEnable : fundef :=
  FunDef "ConversionsEnable" [("self", None); ("_conversionsEnabled", None)] [(EName "eventlog")]
  [SPass].
(* contracts/converter/converter.py:128-129 *)
Definition meth_Converter__require_valid_connector : fundef :=
  FunDef "_require_valid_connector" [("self", None); ("address", None)] []
  [SExpr (ECall (EName "require") [(ECall (EAttr (EAttr (ESub (EAttr (EName "self") "_connectors") (EName "address")) "is_set") "get") [] []); (EStr "invalid connector")] [])].
(* contracts/converter/converter.py:132-134 *)
Definition meth_Converter__require_valid_token : fundef :=
  FunDef "_require_valid_token" [("self", None); ("address", None)] []
  [SExpr (ECall (EName "require") [(EOrL [(ECompare (EName "address") [(CEq, (ECall (EAttr (EAttr (EName "self") "_token") "get") [] []))]); (ECall (EAttr (EAttr (ESub (EAttr (EName "self") "_connectors") (EName "address")) "is_set") "get") [] [])]); (EStr "invalid token")] [])].
(* contracts/converter/converter.py:137-138 *)
Definition meth_Converter__require_valid_max_conversion_fee : fundef :=
  FunDef "_require_valid_max_conversion_fee" [("self", None); ("conversion_fee", None)] []
  [SExpr (ECall (EName "require") [(ECompare (EInt 0) [(CLe, (EName "conversion_fee")); (CLe, (EAttr (EName "self") "_MAX_CONVERSION_FEE"))]); (EStr "invalid max conversion fee")] [])].
(* contracts/converter/converter.py:141-142 *)
Definition meth_Converter__require_valid_conversion_fee : fundef :=
  FunDef "_require_valid_conversion_fee" [("self", None); ("conversion_fee", None)] []
  [SExpr (ECall (EName "require") [(ECompare (EInt 0) [(CLe, (EName "conversion_fee")); (CLe, (ECall (EAttr (EAttr (EName "self") "_max_conversion_fee") "get") [] []))]); (EStr "invalid conversion fee")] [])].
(* contracts/converter/converter.py:145-146 *)
Definition meth_Converter__require_valid_connector_weight : fundef :=
  FunDef "_require_valid_connector_weight" [("self", None); ("weight", None)] []
  [SExpr (ECall (EName "require") [(ECompare (EInt 0) [(CLt, (EName "weight")); (CLe, (EAttr (EName "self") "_MAX_WEIGHT"))]); (EStr "invalid connector weight")] [])].
(* contracts/converter/converter.py:149-150 *)
Definition meth_Converter__require_max_total_weight_only : fundef :=
  FunDef "_require_max_total_weight_only" [("self", None)] []
  [SExpr (ECall (EName "require") [(ECompare (ECall (EAttr (EAttr (EName "self") "_total_connector_weight") "get") [] []) [(CEq, (EAttr (EName "self") "_MAX_WEIGHT"))]); (EStr "required max total weight")] [])].
(* contracts/converter/converter.py:153-154 *)
Definition meth_Converter__require_conversions_allowed : fundef :=
  FunDef "_require_conversions_allowed" [("self", None)] []
  [SExpr (ECall (EName "require") [(ECall (EAttr (EAttr (EName "self") "_conversions_enabled") "get") [] []); (EStr "required conversions enabled")] [])].
(* contracts/converter/converter.py:156-176 *)
Definition meth_Converter___init__ : fundef :=
  FunDef "__init__" [("self", None); ("db", None)] []
  [SExpr (ECall (EAttr (ECall (EName "super") [] []) "__init__") [(EName "db")] []);
   SAssign [(EAttr (EName "self") "_allow_registry_update")] (ECall (EName "VarDB") [(EStr "allow_registry_update"); (EName "db"); (EName "bool")] []);
   SAssign [(EAttr (EName "self") "_prev_registry")] (ECall (EName "VarDB") [(EStr "prev_registry"); (EName "db"); (EName "Address")] []);
   SAssign [(EAttr (EName "self") "_registry")] (ECall (EName "VarDB") [(EStr "registry"); (EName "db"); (EName "Address")] []);
   SAssign [(EAttr (EName "self") "_connector_tokens")] (ECall (EName "ArrayDB") [(EStr "connector_tokens"); (EName "db"); (EName "Address")] []);
   SAssign [(EAttr (EName "self") "_total_connector_weight")] (ECall (EName "VarDB") [(EStr "total_connector_weight"); (EName "db"); (EName "int")] []);
   SAssign [(EAttr (EName "self") "_max_conversion_fee")] (ECall (EName "VarDB") [(EStr "max_conversion_fee"); (EName "db"); (EName "int")] []);
   SAssign [(EAttr (EName "self") "_conversion_fee")] (ECall (EName "VarDB") [(EStr "conversion_fee"); (EName "db"); (EName "int")] []);
   SAssign [(EAttr (EName "self") "_conversions_enabled")] (ECall (EName "VarDB") [(EStr "conversions_enabled"); (EName "db"); (EName "bool")] []);
   SAssign [(EAttr (EName "self") "_connectors")] (ECall (EName "ConnectorDict") [(EName "db")] [])].
(* contracts/converter/converter.py:178-205 *)
Definition meth_Converter_on_install : fundef :=
  FunDef "on_install" [("self", None); ("_token", None); ("_registry", None); ("_maxConversionFee", None); ("_connectorToken", None); ("_connectorWeight", None)] []
  [SExpr (ECall (EName "require_valid_address") [(EName "_registry")] []);
   SExpr (ECall (EAttr (EName "self") "_require_valid_max_conversion_fee") [(EName "_maxConversionFee")] []);
   SExpr (ECall (EAttr (EName "FlexibleTokenController") "on_install") [(EName "self"); (EName "_token")] []);
   SExpr (ECall (EAttr (EAttr (EName "self") "_allow_registry_update") "set") [(EBool true)] []);
   SExpr (ECall (EAttr (EAttr (EName "self") "_registry") "set") [(EName "_registry")] []);
   SExpr (ECall (EAttr (EAttr (EName "self") "_prev_registry") "set") [(EName "_registry")] []);
   SExpr (ECall (EAttr (EAttr (EName "self") "_conversions_enabled") "set") [(EBool true)] []);
   SExpr (ECall (EAttr (EAttr (EName "self") "_max_conversion_fee") "set") [(EName "_maxConversionFee")] []);
   SIf (ECall (EName "is_valid_address") [(EName "_connectorToken")] [])
    [SExpr (ECall (EAttr (EName "self") "addConnector") [(EName "_connectorToken"); (EName "_connectorWeight"); (EBool false)] [])]
    []].
(* contracts/converter/converter.py:207-208 *)
Definition meth_Converter_on_update : fundef :=
  FunDef "on_update" [("self", None)] []
  [SExpr (ECall (EAttr (EName "FlexibleTokenController") "on_update") [(EName "self")] [])].
(* contracts/converter/converter.py:211-250 *)
Definition meth_Converter_tokenFallback : fundef :=
  FunDef "tokenFallback" [("self", None); ("_from", None); ("_value", None); ("_data", None)] [(EName "external")]
  [SExpr (ECall (EName "require_positive_value") [(EName "_value")] []);
   SAssign [(EName "from_token")] (EAttr (EAttr (EName "self") "msg") "sender");
   SIf (EAndL [(EOrL [(ECompare (EName "_from") [(CEq, (ECall (EAttr (EName "self") "getOwner") [] []))]); (ECompare (EName "_from") [(CEq, (EAttr (EName "self") "getManager"))])]); (ECall (EAttr (EAttr (ESub (EAttr (EName "self") "_connectors") (EName "from_token")) "is_set") "get") [] []); (ENot (ECall (EAttr (EName "self") "_is_active") [] []))])
    [SPass]
    [SAssign [(EName "registry")] (ECall (EAttr (EName "self") "create_interface_score") [(ECall (EAttr (EAttr (EName "self") "_registry") "get") [] []); (EName "ScoreRegistry")] []);
     SAssign [(EName "network")] (ECall (EAttr (EName "registry") "getAddress") [(EAttr (EName "ScoreRegistry") "NETWORK")] []);
     SExpr (ECall (EName "require") [(ECompare (EName "_from") [(CEq, (EName "network"))]); (EStr "'trader' must be network only")] []);
     STry
      [SAssign [(EName "conversion_params")] (ECall (EName "json_loads") [(ECall (EAttr (EName "_data") "decode") [(EStr "utf-8")] [])] []);
       SAssign [(EName "to_token")] (ECall (EAttr (EName "Address") "from_string") [(ESub (EName "conversion_params") (EStr "toToken"))] []);
       SAssign [(EName "min_return")] (ESub (EName "conversion_params") (EStr "minReturn"));
       SReturn (Some (ECall (EAttr (EName "self") "_convert") [(EName "_from"); (EName "from_token"); (EName "to_token"); (EName "_value"); (EName "min_return")] []))]
      [[SExpr (ECall (EName "revert") [(ECall (EName "str") [(EName "e")] [])] [])]]]].
(* contracts/converter/converter.py:252-281 *)
Definition meth_Converter__convert : fundef :=
  FunDef "_convert" [("self", None); ("trader", None); ("from_token", None); ("to_token", None); ("amount", None); ("min_return", None)] []
  [SExpr (ECall (EAttr (EName "self") "_require_conversions_allowed") [] []);
   SExpr (ECall (EName "require_positive_value") [(EName "min_return")] []);
   SExpr (ECall (EName "require") [(ECompare (EName "from_token") [(CNe, (EName "to_token"))]); (EStr "'from token' and 'to token' must not be same")] []);
   SAssign [(EName "flexible_token")] (ECall (EAttr (EAttr (EName "self") "_token") "get") [] []);
   SIf (ECompare (EName "to_token") [(CEq, (EName "flexible_token"))])
    [SReturn (Some (ECall (EAttr (EName "self") "_buy") [(EName "trader"); (EName "from_token"); (EName "amount"); (EName "min_return")] []))]
    [SIf (ECompare (EName "from_token") [(CEq, (EName "flexible_token"))])
      [SReturn (Some (ECall (EAttr (EName "self") "_sell") [(EName "trader"); (EName "to_token"); (EName "amount"); (EName "min_return")] []))]
      []];
   SReturn (Some (ECall (EAttr (EName "self") "_convert_cross_connector") [(EName "trader"); (EName "from_token"); (EName "to_token"); (EName "amount"); (EName "min_return")] []))].
(* contracts/converter/converter.py:283-321 *)
Definition meth_Converter__buy : fundef :=
  FunDef "_buy" [("self", None); ("trader", None); ("connector_token", None); ("amount", None); ("min_return", None)] []
  [SAssign [(EName "returns")] (ECall (EAttr (EName "self") "get_purchase_return") [(EName "connector_token"); (EName "amount"); (EBool true)] []);
   SAssign [(EName "return_amount")] (ESub (EName "returns") (EStr "amount"));
   SAssign [(EName "fee_amount")] (ESub (EName "returns") (EStr "fee"));
   SExpr (ECall (EName "require") [(ECompare (EName "return_amount") [(CGe, (EName "min_return"))]); (EStr "returning amount less than minimum requested amount")] []);
   SAssign [(EName "connector")] (ESub (EAttr (EName "self") "_connectors") (EName "connector_token"));
   SIf (ECall (EAttr (EAttr (EName "connector") "is_virtual_balance_enabled") "get") [] [])
    [SExpr (ECall (EAttr (EAttr (EName "connector") "virtual_balance") "set") [(EBin BAdd (ECall (EAttr (EAttr (EName "connector") "virtual_balance") "get") [] []) (EName "amount"))] [])]
    [];
   SAssign [(EName "flexible_token_address")] (ECall (EAttr (EAttr (EName "self") "_token") "get") [] []);
   SAssign [(EName "flexible_token")] (ECall (EAttr (EName "self") "create_interface_score") [(EName "flexible_token_address"); (EName "FlexibleToken")] []);
   SExpr (ECall (EAttr (EName "flexible_token") "issue") [(EName "trader"); (EName "return_amount")] []);
   SExpr (ECall (EAttr (EName "self") "Conversion") [(EName "connector_token"); (EName "flexible_token_address"); (EName "trader"); (EName "amount"); (EName "return_amount"); (EName "fee_amount")] []);
   SExpr (ECall (EAttr (EName "self") "PriceDataUpdate") [(EName "connector_token"); (ECall (EAttr (EName "flexible_token") "totalSupply") [] []); (ECall (EAttr (EName "self") "getConnectorBalance") [(EName "connector_token")] []); (ECall (EAttr (EAttr (EName "connector") "weight") "get") [] [])] []);
   SReturn (Some (EName "return_amount"))].
(* contracts/converter/converter.py:323-376 *)
Definition meth_Converter__sell : fundef :=
  FunDef "_sell" [("self", None); ("trader", None); ("connector_token", None); ("amount", None); ("min_return", None)] []
  [SAssign [(EName "returns")] (ECall (EAttr (EName "self") "get_sale_return") [(EName "connector_token"); (EName "amount")] []);
   SAssign [(EName "return_amount")] (ESub (EName "returns") (EStr "amount"));
   SAssign [(EName "fee_amount")] (ESub (EName "returns") (EStr "fee"));
   SExpr (ECall (EName "require") [(ECompare (EName "return_amount") [(CGe, (EName "min_return"))]); (EStr "returning amount less than minimum requested amount")] []);
   SAssign [(EName "flexible_token_address")] (ECall (EAttr (EAttr (EName "self") "_token") "get") [] []);
   SAssign [(EName "flexible_token")] (ECall (EAttr (EName "self") "create_interface_score") [(EName "flexible_token_address"); (EName "FlexibleToken")] []);
   SAssign [(EName "token_supply")] (ECall (EAttr (EName "flexible_token") "totalSupply") [] []);
   SAssign [(EName "connector_balance")] (ECall (EAttr (EName "self") "getConnectorBalance") [(EName "connector_token")] []);
   SExpr (ECall (EName "require") [(EOrL [(ECompare (EName "return_amount") [(CLt, (EName "connector_balance"))]); (EAndL [(ECompare (EName "return_amount") [(CEq, (EName "connector_balance"))]); (ECompare (EName "amount") [(CEq, (EName "token_supply"))])])]); (EStr "returning amount does not meet connector balance condition")] []);
   SAssign [(EName "connector")] (ESub (EAttr (EName "self") "_connectors") (EName "connector_token"));
   SIf (ECall (EAttr (EAttr (EName "connector") "is_virtual_balance_enabled") "get") [] [])
    [SExpr (ECall (EAttr (EAttr (EName "connector") "virtual_balance") "set") [(ECall (EName "safe_sub") [(ECall (EAttr (EAttr (EName "connector") "virtual_balance") "get") [] []); (EName "return_amount")] [])] [])]
    [];
   SExpr (ECall (EAttr (EName "flexible_token") "destroy") [(EAttr (EName "self") "address"); (EName "amount")] []);
   SAssign [(EName "irc_token")] (ECall (EAttr (EName "self") "create_interface_score") [(EName "connector_token"); (EName "IRCToken")] []);
   SExpr (ECall (EAttr (EName "irc_token") "transfer") [(EName "trader"); (EName "return_amount"); (EName "TRANSFER_DATA")] []);
   SExpr (ECall (EAttr (EName "self") "Conversion") [(EName "flexible_token_address"); (EName "connector_token"); (EName "trader"); (EName "amount"); (EName "return_amount"); (EName "fee_amount")] []);
   SExpr (ECall (EAttr (EName "self") "PriceDataUpdate") [(EName "connector_token"); (ECall (EAttr (EName "flexible_token") "totalSupply") [] []); (ECall (EAttr (EName "self") "getConnectorBalance") [(EName "connector_token")] []); (ECall (EAttr (EAttr (EName "connector") "weight") "get") [] [])] []);
   SReturn (Some (EName "return_amount"))].
(* contracts/converter/converter.py:378-429 *)
Definition meth_Converter__convert_cross_connector : fundef :=
  FunDef "_convert_cross_connector" [("self", None); ("trader", None); ("from_token", None); ("to_token", None); ("amount", None); ("min_return", None)] []
  [SAssign [(EName "returns")] (ECall (EAttr (EName "self") "get_cross_connector_return") [(EName "from_token"); (EName "to_token"); (EName "amount"); (EBool true)] []);
   SAssign [(EName "return_amount")] (ESub (EName "returns") (EStr "amount"));
   SAssign [(EName "fee_amount")] (ESub (EName "returns") (EStr "fee"));
   SExpr (ECall (EName "require") [(ECompare (EName "return_amount") [(CGe, (EName "min_return"))]); (EStr "returning amount less than minimum requested amount")] []);
   SAssign [(EName "from_connector")] (ESub (EAttr (EName "self") "_connectors") (EName "from_token"));
   SIf (ECall (EAttr (EAttr (EName "from_connector") "is_virtual_balance_enabled") "get") [] [])
    [SExpr (ECall (EAttr (EAttr (EName "from_connector") "virtual_balance") "set") [(EBin BAdd (ECall (EAttr (EAttr (EName "from_connector") "virtual_balance") "get") [] []) (EName "amount"))] [])]
    [];
   SAssign [(EName "to_connector")] (ESub (EAttr (EName "self") "_connectors") (EName "to_token"));
   SIf (ECall (EAttr (EAttr (EName "to_connector") "is_virtual_balance_enabled") "get") [] [])
    [SExpr (ECall (EAttr (EAttr (EName "to_connector") "virtual_balance") "set") [(ECall (EName "safe_sub") [(ECall (EAttr (EAttr (EName "to_connector") "virtual_balance") "get") [] []); (EName "return_amount")] [])] [])]
    [];
   SAssign [(EName "to_connector_balance")] (ECall (EAttr (EName "self") "getConnectorBalance") [(EName "to_token")] []);
   SExpr (ECall (EName "require") [(ECompare (EName "return_amount") [(CLt, (EName "to_connector_balance"))]); (EStr "returning amount does not meet connector balance condition")] []);
   SAssign [(EName "irc_token")] (ECall (EAttr (EName "self") "create_interface_score") [(EName "to_token"); (EName "IRCToken")] []);
   SExpr (ECall (EAttr (EName "irc_token") "transfer") [(EName "trader"); (EName "return_amount"); (EName "TRANSFER_DATA")] []);
   SExpr (ECall (EAttr (EName "self") "Conversion") [(EName "from_token"); (EName "to_token"); (EName "trader"); (EName "amount"); (EName "return_amount"); (EName "fee_amount")] []);
   SAssign [(EName "flexible_token")] (ECall (EAttr (EName "self") "create_interface_score") [(ECall (EAttr (EAttr (EName "self") "_token") "get") [] []); (EName "FlexibleToken")] []);
   SAssign [(EName "token_supply")] (ECall (EAttr (EName "flexible_token") "totalSupply") [] []);
   SExpr (ECall (EAttr (EName "self") "PriceDataUpdate") [(EName "from_token"); (EName "token_supply"); (ECall (EAttr (EName "self") "getConnectorBalance") [(EName "from_token")] []); (ECall (EAttr (EAttr (EName "from_connector") "weight") "get") [] [])] []);
   SExpr (ECall (EAttr (EName "self") "PriceDataUpdate") [(EName "to_token"); (EName "token_supply"); (ECall (EAttr (EName "self") "getConnectorBalance") [(EName "to_token")] []); (ECall (EAttr (EAttr (EName "to_connector") "weight") "get") [] [])] []);
   SReturn (Some (EName "return_amount"))].
(* contracts/converter/converter.py:431-458 *)
Definition meth_Converter_get_purchase_return : fundef :=
  FunDef "get_purchase_return" [("self", None); ("connector_token", None); ("amount", None); ("from_conversion", Some (EBool false))] []
  [SExpr (ECall (EAttr (EName "self") "_require_active") [] []);
   SExpr (ECall (EAttr (EName "self") "_require_valid_connector") [(EName "connector_token")] []);
   SAssign [(EName "connector")] (ESub (EAttr (EName "self") "_connectors") (EName "connector_token"));
   SExpr (ECall (EName "require") [(ECall (EAttr (EAttr (EName "connector") "is_purchase_enabled") "get") [] []); (EStr "required purchase enabled")] []);
   SAssign [(EName "flexible_token")] (ECall (EAttr (EName "self") "create_interface_score") [(ECall (EAttr (EAttr (EName "self") "_token") "get") [] []); (EName "FlexibleToken")] []);
   SAssign [(EName "token_supply")] (ECall (EAttr (EName "flexible_token") "totalSupply") [] []);
   SAssign [(EName "connector_balance")] (ECall (EAttr (EName "self") "getConnectorBalance") [(EName "connector_token")] []);
   SIf (EName "from_conversion")
    [SAug (EName "connector_balance") BSub (EName "amount")]
    [];
   SAssign [(EName "calculated_amount")] (ECall (EAttr (EName "formula") "calculate_purchase_return") [(EName "token_supply"); (EName "connector_balance"); (ECall (EAttr (EAttr (EName "connector") "weight") "get") [] []); (EName "amount")] []);
   SAssign [(EName "final_amount")] (ECall (EAttr (EName "self") "getFinalAmount") [(EName "calculated_amount"); (EInt 1)] []);
   SReturn (Some (EDictL [((EStr "amount"), (EName "final_amount")); ((EStr "fee"), (ECall (EName "safe_sub") [(EName "calculated_amount"); (EName "final_amount")] []))]))].
(* contracts/converter/converter.py:460-482 *)
Definition meth_Converter_get_sale_return : fundef :=
  FunDef "get_sale_return" [("self", None); ("connector_token", None); ("amount", None)] []
  [SExpr (ECall (EAttr (EName "self") "_require_active") [] []);
   SExpr (ECall (EAttr (EName "self") "_require_valid_connector") [(EName "connector_token")] []);
   SAssign [(EName "connector")] (ESub (EAttr (EName "self") "_connectors") (EName "connector_token"));
   SAssign [(EName "flexible_token")] (ECall (EAttr (EName "self") "create_interface_score") [(ECall (EAttr (EAttr (EName "self") "_token") "get") [] []); (EName "FlexibleToken")] []);
   SAssign [(EName "token_supply")] (ECall (EAttr (EName "flexible_token") "totalSupply") [] []);
   SAssign [(EName "connector_balance")] (ECall (EAttr (EName "self") "getConnectorBalance") [(EName "connector_token")] []);
   SAssign [(EName "calculated_amount")] (ECall (EAttr (EName "formula") "calculate_sale_return") [(EName "token_supply"); (EName "connector_balance"); (ECall (EAttr (EAttr (EName "connector") "weight") "get") [] []); (EName "amount")] []);
   SAssign [(EName "final_amount")] (ECall (EAttr (EName "self") "getFinalAmount") [(EName "calculated_amount"); (EInt 1)] []);
   SReturn (Some (EDictL [((EStr "amount"), (EName "final_amount")); ((EStr "fee"), (ECall (EName "safe_sub") [(EName "calculated_amount"); (EName "final_amount")] []))]))].
(* contracts/converter/converter.py:484-516 *)
Definition meth_Converter_get_cross_connector_return : fundef :=
  FunDef "get_cross_connector_return" [("self", None); ("from_token", None); ("to_token", None); ("amount", None); ("from_conversion", Some (EBool false))] []
  [SExpr (ECall (EAttr (EName "self") "_require_active") [] []);
   SExpr (ECall (EAttr (EName "self") "_require_valid_connector") [(EName "from_token")] []);
   SExpr (ECall (EAttr (EName "self") "_require_valid_connector") [(EName "to_token")] []);
   SAssign [(EName "from_connector")] (ESub (EAttr (EName "self") "_connectors") (EName "from_token"));
   SAssign [(EName "to_connector")] (ESub (EAttr (EName "self") "_connectors") (EName "to_token"));
   SExpr (ECall (EName "require") [(ECall (EAttr (EAttr (EName "to_connector") "is_purchase_enabled") "get") [] []); (EStr "required purchase enabled")] []);
   SAssign [(EName "from_connector_balance")] (ECall (EAttr (EName "self") "getConnectorBalance") [(EName "from_token")] []);
   SIf (EName "from_conversion")
    [SAug (EName "from_connector_balance") BSub (EName "amount")]
    [];
   SAssign [(EName "to_connector_balance")] (ECall (EAttr (EName "self") "getConnectorBalance") [(EName "to_token")] []);
   SAssign [(EName "calculated_amount")] (ECall (EAttr (EName "formula") "calculate_cross_connector_return") [(EName "from_connector_balance"); (ECall (EAttr (EAttr (EName "from_connector") "weight") "get") [] []); (EName "to_connector_balance"); (ECall (EAttr (EAttr (EName "to_connector") "weight") "get") [] []); (EName "amount")] []);
   SAssign [(EName "final_amount")] (ECall (EAttr (EName "self") "getFinalAmount") [(EName "calculated_amount"); (EInt 2)] []);
   SReturn (Some (EDictL [((EStr "amount"), (EName "final_amount")); ((EStr "fee"), (ECall (EName "safe_sub") [(EName "calculated_amount"); (EName "final_amount")] []))]))].
(* contracts/converter/converter.py:519-547 *)
Definition meth_Converter_addConnector : fundef :=
  FunDef "addConnector" [("self", None); ("_token", None); ("_weight", None); ("_enableVirtualBalance", None)] [(EName "external")]
  [SExpr (ECall (EAttr (EName "self") "require_owner_only") [] []);
   SExpr (ECall (EAttr (EName "self") "_require_inactive") [] []);
   SExpr (ECall (EName "require_valid_address") [(EName "_token")] []);
   SExpr (ECall (EName "require_not_this") [(EAttr (EName "self") "address"); (EName "_token")] []);
   SExpr (ECall (EAttr (EName "self") "_require_valid_connector_weight") [(EName "_weight")] []);
   SExpr (ECall (EName "require") [(ECompare (ECall (EAttr (EAttr (EName "self") "_token") "get") [] []) [(CNe, (EName "_token"))]); (EStr "the input token should not be the flexible token")] []);
   SExpr (ECall (EName "require") [(ENot (ECall (EAttr (EAttr (ESub (EAttr (EName "self") "_connectors") (EName "_token")) "is_set") "get") [] [])); (EStr "the input token has already been set")] []);
   SExpr (ECall (EName "require") [(ECompare (EBin BAdd (ECall (EAttr (EAttr (EName "self") "_total_connector_weight") "get") [] []) (EName "_weight")) [(CLe, (EAttr (EName "self") "_MAX_WEIGHT"))]); (EStr "total connector weight is overflow")] []);
   SExpr (ECall (EAttr (EAttr (ESub (EAttr (EName "self") "_connectors") (EName "_token")) "virtual_balance") "set") [(EInt 0)] []);
   SExpr (ECall (EAttr (EAttr (ESub (EAttr (EName "self") "_connectors") (EName "_token")) "weight") "set") [(EName "_weight")] []);
   SExpr (ECall (EAttr (EAttr (ESub (EAttr (EName "self") "_connectors") (EName "_token")) "is_virtual_balance_enabled") "set") [(EName "_enableVirtualBalance")] []);
   SExpr (ECall (EAttr (EAttr (ESub (EAttr (EName "self") "_connectors") (EName "_token")) "is_purchase_enabled") "set") [(EBool true)] []);
   SExpr (ECall (EAttr (EAttr (ESub (EAttr (EName "self") "_connectors") (EName "_token")) "is_set") "set") [(EBool true)] []);
   SExpr (ECall (EAttr (EAttr (EName "self") "_connector_tokens") "put") [(EName "_token")] []);
   SExpr (ECall (EAttr (EAttr (EName "self") "_total_connector_weight") "set") [(EBin BAdd (ECall (EAttr (EAttr (EName "self") "_total_connector_weight") "get") [] []) (EName "_weight"))] [])].
(* contracts/converter/converter.py:550-574 *)
Definition meth_Converter_updateConnector : fundef :=
  FunDef "updateConnector" [("self", None); ("_connectorToken", None); ("_weight", None); ("_enableVirtualBalance", None); ("_virtualBalance", None)] [(EName "external")]
  [SExpr (ECall (EAttr (EName "self") "require_owner_only") [] []);
   SExpr (ECall (EAttr (EName "self") "_require_valid_connector") [(EName "_connectorToken")] []);
   SExpr (ECall (EAttr (EName "self") "_require_valid_connector_weight") [(EName "_weight")] []);
   SAssign [(EName "connector")] (ESub (EAttr (EName "self") "_connectors") (EName "_connectorToken"));
   SAssign [(EName "new_total_weight")] (EBin BAdd (EBin BSub (ECall (EAttr (EAttr (EName "self") "_total_connector_weight") "get") [] []) (ECall (EAttr (EAttr (EName "connector") "weight") "get") [] [])) (EName "_weight"));
   SExpr (ECall (EName "require") [(ECompare (EName "new_total_weight") [(CLe, (EAttr (EName "self") "_MAX_WEIGHT"))]); (EStr "total connector weight is overflow")] []);
   SExpr (ECall (EAttr (EAttr (EName "self") "_total_connector_weight") "set") [(EName "new_total_weight")] []);
   SExpr (ECall (EAttr (EAttr (EName "connector") "weight") "set") [(EName "_weight")] []);
   SExpr (ECall (EAttr (EAttr (EName "connector") "is_virtual_balance_enabled") "set") [(EName "_enableVirtualBalance")] []);
   SExpr (ECall (EAttr (EAttr (EName "connector") "virtual_balance") "set") [(EName "_virtualBalance")] [])].
(* contracts/converter/converter.py:577-589 *)
Definition meth_Converter_disableConnectorPurchases : fundef :=
  FunDef "disableConnectorPurchases" [("self", None); ("_connectorToken", None); ("_disable", None)] [(EName "external")]
  [SExpr (ECall (EAttr (EName "self") "require_owner_only") [] []);
   SExpr (ECall (EAttr (EName "self") "_require_valid_connector") [(EName "_connectorToken")] []);
   SExpr (ECall (EAttr (EAttr (ESub (EAttr (EName "self") "_connectors") (EName "_connectorToken")) "is_purchase_enabled") "set") [(ENot (EName "_disable"))] [])].
(* contracts/converter/converter.py:592-612 *)
Definition meth_Converter_updateRegistry : fundef :=
  FunDef "updateRegistry" [("self", None)] [(EName "external")]
  [SExpr (ECall (EName "require") [(EOrL [(ECall (EAttr (EAttr (EName "self") "_allow_registry_update") "get") [] []); (ECompare (EAttr (EAttr (EName "self") "msg") "sender") [(CEq, (ECall (EAttr (EName "self") "getOwner") [] []))])]); (EStr "should be allowed updating or caller is the owner")] []);
   SAssign [(EName "registry")] (ECall (EAttr (EName "self") "create_interface_score") [(ECall (EAttr (EAttr (EName "self") "_registry") "get") [] []); (EName "ScoreRegistry")] []);
   SAssign [(EName "new_registry")] (ECall (EAttr (EName "registry") "getAddress") [(EAttr (EName "ScoreRegistry") "SCORE_REGISTRY")] []);
   SExpr (ECall (EName "require_valid_address") [(EName "new_registry")] []);
   SExpr (ECall (EName "require") [(ECompare (EName "new_registry") [(CNe, (ECall (EAttr (EAttr (EName "self") "_registry") "get") [] []))]); (EStr "new registry should not be same with old one")] []);
   SExpr (ECall (EAttr (EAttr (EName "self") "_prev_registry") "set") [(ECall (EAttr (EAttr (EName "self") "_registry") "get") [] [])] []);
   SExpr (ECall (EAttr (EAttr (EName "self") "_registry") "set") [(EName "new_registry")] [])].
(* contracts/converter/converter.py:615-626 *)
Definition meth_Converter_restoreRegistry : fundef :=
  FunDef "restoreRegistry" [("self", None)] [(EName "external")]
  [SExpr (ECall (EAttr (EName "self") "require_owner_or_manager_only") [] []);
   SExpr (ECall (EAttr (EAttr (EName "self") "_registry") "set") [(ECall (EAttr (EAttr (EName "self") "_prev_registry") "get") [] [])] []);
   SExpr (ECall (EAttr (EAttr (EName "self") "_allow_registry_update") "set") [(EBool false)] [])].
(* contracts/converter/converter.py:629-639 *)
Definition meth_Converter_disableRegistryUpdate : fundef :=
  FunDef "disableRegistryUpdate" [("self", None); ("_disable", None)] [(EName "external")]
  [SExpr (ECall (EAttr (EName "self") "require_owner_or_manager_only") [] []);
   SExpr (ECall (EAttr (EAttr (EName "self") "_allow_registry_update") "set") [(ENot (EName "_disable"))] [])].
(* contracts/converter/converter.py:642-655 *)
Definition meth_Converter_disableConversions : fundef :=
  FunDef "disableConversions" [("self", None); ("_disable", None)] [(EName "external")]
  [SExpr (ECall (EAttr (EName "self") "require_owner_or_manager_only") [] []);
   SIf (ECompare (ECall (EAttr (EAttr (EName "self") "_conversions_enabled") "get") [] []) [(CEq, (EName "_disable"))])
    [SAssign [(EName "enable")] (ENot (EName "_disable"));
     SExpr (ECall (EAttr (EAttr (EName "self") "_conversions_enabled") "set") [(EName "enable")] []);
     SExpr (ECall (EAttr (EName "self") "ConversionsEnable") [(EName "enable")] [])]
    []].
(* contracts/converter/converter.py:658-670 *)
Definition meth_Converter_setConversionFee : fundef :=
  FunDef "setConversionFee" [("self", None); ("_conversionFee", None)] [(EName "external")]
  [SExpr (ECall (EAttr (EName "self") "require_owner_or_manager_only") [] []);
   SExpr (ECall (EAttr (EName "self") "_require_valid_conversion_fee") [(EName "_conversionFee")] []);
   SExpr (ECall (EAttr (EName "self") "ConversionFeeUpdate") [(ECall (EAttr (EAttr (EName "self") "_conversion_fee") "get") [] []); (EName "_conversionFee")] []);
   SExpr (ECall (EAttr (EAttr (EName "self") "_conversion_fee") "set") [(EName "_conversionFee")] [])].
(* contracts/converter/converter.py:673-685 *)
Definition meth_Converter_withdrawTokens : fundef :=
  FunDef "withdrawTokens" [("self", None); ("_token", None); ("_to", None); ("_amount", None)] [(EName "external")]
  [SExpr (ECall (EName "require") [(EOrL [(ENot (ECall (EAttr (EName "self") "_is_active") [] [])); (ENot (ECall (EAttr (EAttr (ESub (EAttr (EName "self") "_connectors") (EName "_token")) "is_set") "get") [] []))]); (EStr "withdrawing token should be inactive or not a connector token")] []);
   SExpr (ECall (EAttr (ECall (EName "super") [] []) "withdrawTokens") [(EName "_token"); (EName "_to"); (EName "_amount")] [])].
(* contracts/converter/converter.py:688-694 *)
Definition meth_Converter_isAllowRegistryUpdate : fundef :=
  FunDef "isAllowRegistryUpdate" [("self", None)] [(ECall (EName "external") [] [("readonly", (EBool true))])]
  [SReturn (Some (ECall (EAttr (EAttr (EName "self") "_allow_registry_update") "get") [] []))].
(* contracts/converter/converter.py:697-702 *)
Definition meth_Converter_isActive : fundef :=
  FunDef "isActive" [("self", None)] [(ECall (EName "external") [] [("readonly", (EBool true))])]
  [SReturn (Some (ECall (EAttr (EName "self") "_is_active") [] []))].
(* contracts/converter/converter.py:705-711 *)
Definition meth_Converter_getPreviousRegistry : fundef :=
  FunDef "getPreviousRegistry" [("self", None)] [(ECall (EName "external") [] [("readonly", (EBool true))])]
  [SReturn (Some (ECall (EAttr (EAttr (EName "self") "_prev_registry") "get") [] []))].
(* contracts/converter/converter.py:714-720 *)
Definition meth_Converter_getRegistry : fundef :=
  FunDef "getRegistry" [("self", None)] [(ECall (EName "external") [] [("readonly", (EBool true))])]
  [SReturn (Some (ECall (EAttr (EAttr (EName "self") "_registry") "get") [] []))].
(* contracts/converter/converter.py:723-729 *)
Definition meth_Converter_getConnectorTokenCount : fundef :=
  FunDef "getConnectorTokenCount" [("self", None)] [(ECall (EName "external") [] [("readonly", (EBool true))])]
  [SReturn (Some (ECall (EName "len") [(EAttr (EName "self") "_connector_tokens")] []))].
(* contracts/converter/converter.py:732-739 *)
Definition meth_Converter_getMaxConversionFee : fundef :=
  FunDef "getMaxConversionFee" [("self", None)] [(ECall (EName "external") [] [("readonly", (EBool true))])]
  [SReturn (Some (ECall (EAttr (EAttr (EName "self") "_max_conversion_fee") "get") [] []))].
(* contracts/converter/converter.py:742-749 *)
Definition meth_Converter_getConversionFee : fundef :=
  FunDef "getConversionFee" [("self", None)] [(ECall (EName "external") [] [("readonly", (EBool true))])]
  [SReturn (Some (ECall (EAttr (EAttr (EName "self") "_conversion_fee") "get") [] []))].
(* contracts/converter/converter.py:752-758 *)
Definition meth_Converter_isConversionsEnabled : fundef :=
  FunDef "isConversionsEnabled" [("self", None)] [(ECall (EName "external") [] [("readonly", (EBool true))])]
  [SReturn (Some (ECall (EAttr (EAttr (EName "self") "_conversions_enabled") "get") [] []))].
(* contracts/converter/converter.py:761-768 *)
Definition meth_Converter_getConnectorAt : fundef :=
  FunDef "getConnectorAt" [("self", None); ("_index", None)] [(ECall (EName "external") [] [("readonly", (EBool true))])]
  [SReturn (Some (ESub (EAttr (EName "self") "_connector_tokens") (EName "_index")))].
(* contracts/converter/converter.py:771-786 *)
Definition meth_Converter_getConnector : fundef :=
  FunDef "getConnector" [("self", None); ("_address", None)] [(ECall (EName "external") [] [("readonly", (EBool true))])]
  [SAssign [(EName "connector")] (ESub (EAttr (EName "self") "_connectors") (EName "_address"));
   SReturn (Some (EIf (ECall (EAttr (EAttr (EName "connector") "is_set") "get") [] []) (EDictL [((EStr "virtualBalance"), (ECall (EAttr (EAttr (EName "connector") "virtual_balance") "get") [] [])); ((EStr "weight"), (ECall (EAttr (EAttr (EName "connector") "weight") "get") [] [])); ((EStr "isVirtualBalanceEnabled"), (ECall (EAttr (EAttr (EName "connector") "is_virtual_balance_enabled") "get") [] [])); ((EStr "isPurchaseEnabled"), (ECall (EAttr (EAttr (EName "connector") "is_purchase_enabled") "get") [] [])); ((EStr "isSet"), (ECall (EAttr (EAttr (EName "connector") "is_set") "get") [] []))]) (EDictL [])))].
(* contracts/converter/converter.py:789-805 *)
Definition meth_Converter_getConnectorBalance : fundef :=
  FunDef "getConnectorBalance" [("self", None); ("_connectorToken", None)] [(ECall (EName "external") [] [("readonly", (EBool true))])]
  [SExpr (ECall (EAttr (EName "self") "_require_valid_connector") [(EName "_connectorToken")] []);
   SAssign [(EName "connector")] (ESub (EAttr (EName "self") "_connectors") (EName "_connectorToken"));
   SIf (ECall (EAttr (EAttr (EName "connector") "is_virtual_balance_enabled") "get") [] [])
    [SReturn (Some (ECall (EAttr (EAttr (EName "connector") "virtual_balance") "get") [] []))]
    [];
   SAssign [(EName "token")] (ECall (EAttr (EName "self") "create_interface_score") [(EName "_connectorToken"); (EName "IRCToken")] []);
   SReturn (Some (ECall (EAttr (EName "token") "balanceOf") [(EAttr (EName "self") "address")] []))].
(* contracts/converter/converter.py:808-827 *)
Definition meth_Converter_getReturn : fundef :=
  FunDef "getReturn" [("self", None); ("_fromToken", None); ("_toToken", None); ("_amount", None)] [(ECall (EName "external") [] [("readonly", (EBool true))])]
  [SExpr (ECall (EName "require") [(ECompare (EName "_fromToken") [(CNe, (EName "_toToken"))]); (EStr "'from token' and 'to token' must not be same")] []);
   SAssign [(EName "flexible_token")] (ECall (EAttr (EAttr (EName "self") "_token") "get") [] []);
   SIf (ECompare (EName "_toToken") [(CEq, (EName "flexible_token"))])
    [SReturn (Some (ECall (EAttr (EName "self") "get_purchase_return") [(EName "_fromToken"); (EName "_amount")] []))]
    [SIf (ECompare (EName "_fromToken") [(CEq, (EName "flexible_token"))])
      [SReturn (Some (ECall (EAttr (EName "self") "get_sale_return") [(EName "_toToken"); (EName "_amount")] []))]
      []];
   SReturn (Some (ECall (EAttr (EName "self") "get_cross_connector_return") [(EName "_fromToken"); (EName "_toToken"); (EName "_amount")] []))].
(* contracts/converter/converter.py:830-839 *)
Definition meth_Converter_getFinalAmount : fundef :=
  FunDef "getFinalAmount" [("self", None); ("_amount", None); ("_magnitude", None)] [(ECall (EName "external") [] [("readonly", (EBool true))])]
  [SAssign [(EName "final_ratio")] (EBin BSub (EAttr (EName "self") "_MAX_CONVERSION_FEE") (ECall (EAttr (EAttr (EName "self") "_conversion_fee") "get") [] []));
   SReturn (Some (EBin BFloorDiv (EBin BMul (EName "_amount") (EBin BPow (EName "final_ratio") (EName "_magnitude"))) (EBin BPow (EAttr (EName "self") "_MAX_CONVERSION_FEE") (EName "_magnitude"))))].
(* contracts/converter/converter.py:76-839 *)
Definition class_Converter : classdef :=
  ClassDef "Converter" [(EName "ABCConverter"); (EName "FlexibleTokenController"); (EName "Managed")]
  [SAssign [(EName "_REVISION")] (EInt 0);
   SAssign [(EName "_MAX_WEIGHT")] (EInt 1000000);
   SAssign [(EName "_MAX_CONVERSION_FEE")] (EInt 1000000)]
  [meth_Converter_Conversion; meth_Converter_PriceDataUpdate; meth_Converter_ConversionFeeUpdate; meth_Converter_ConversionsEnable; meth_Converter__require_valid_connector; meth_Converter__require_valid_token; meth_Converter__require_valid_max_conversion_fee; meth_Converter__require_valid_conversion_fee; meth_Converter__require_valid_connector_weight; meth_Converter__require_max_total_weight_only; meth_Converter__require_conversions_allowed; meth_Converter___init__; meth_Converter_on_install; meth_Converter_on_update; meth_Converter_tokenFallback; meth_Converter__convert; meth_Converter__buy; meth_Converter__sell; meth_Converter__convert_cross_connector; meth_Converter_get_purchase_return; meth_Converter_get_sale_return; meth_Converter_get_cross_connector_return; meth_Converter_addConnector; meth_Converter_updateConnector; meth_Converter_disableConnectorPurchases; meth_Converter_updateRegistry; meth_Converter_restoreRegistry; meth_Converter_disableRegistryUpdate; meth_Converter_disableConversions; meth_Converter_setConversionFee; meth_Converter_withdrawTokens; meth_Converter_isAllowRegistryUpdate; meth_Converter_isActive; meth_Converter_getPreviousRegistry; meth_Converter_getRegistry; meth_Converter_getConnectorTokenCount; meth_Converter_getMaxConversionFee; meth_Converter_getConversionFee; meth_Converter_isConversionsEnabled; meth_Converter_getConnectorAt; meth_Converter_getConnector; meth_Converter_getConnectorBalance; meth_Converter_getReturn; meth_Converter_getFinalAmount].
(* contracts/converter/converter.py *)
Definition mod_converter_converter : module := PyModule "converter.converter" ["utility.utils"]
  [("formula", ("formula", "formula")); ("ABCConverter", ("interfaces.abc_converter", "ABCConverter")); ("ABCFlexibleToken", ("interfaces.abc_flexible_token", "ABCFlexibleToken")); ("ABCIRCToken", ("interfaces.abc_irc_token", "ABCIRCToken")); ("ABCScoreRegistry", ("interfaces.abc_score_registry", "ABCScoreRegistry")); ("FlexibleTokenController", ("utility.flexible_token_controller", "FlexibleTokenController")); ("Managed", ("utility.managed", "Managed")); ("ProxyScore", ("utility.proxy_score", "ProxyScore"))]
  [("TAG", (EStr "Converter")); ("TRANSFER_DATA", (EBytes "conversionResult")); ("CONNECTOR_DB_PREFIX", (EBytes "?")); ("FlexibleToken", (ECall (EName "ProxyScore") [(EName "ABCFlexibleToken")] [])); ("ScoreRegistry", (ECall (EName "ProxyScore") [(EName "ABCScoreRegistry")] [])); ("IRCToken", (ECall (EName "ProxyScore") [(EName "ABCIRCToken")] []))]
  []
  [class_Connector; class_ConnectorDict; class_Converter].

(* contracts/network/network.py:38-40 *)
Definition meth_Network___init__ : fundef :=
  FunDef "__init__" [("self", None); ("db", None)] []
  [SExpr (ECall (EAttr (ECall (EName "super") [] []) "__init__") [(EName "db")] []);
   SAssign [(EAttr (EName "self") "_icx_tokens")] (ECall (EName "DictDB") [(EStr "icx_tokens"); (EName "db")] [("value_type", (EName "bool"))])].
(* contracts/network/network.py:42-43 *)
Definition meth_Network_on_install : fundef :=
  FunDef "on_install" [("self", None)] []
  [SExpr (ECall (EAttr (EName "TokenHolder") "on_install") [(EName "self")] [])].
(* contracts/network/network.py:45-46 *)
Definition meth_Network_on_update : fundef :=
  FunDef "on_update" [("self", None)] []
  [SExpr (ECall (EAttr (EName "TokenHolder") "on_update") [(EName "self")] [])].
(* contracts/network/network.py:49-74 *)
Definition meth_Network_getExpectedReturnByPath : fundef :=
  FunDef "getExpectedReturnByPath" [("self", None); ("_path", None); ("_amount", None)] [(ECall (EName "external") [] [("readonly", (EBool true))])]
  [SAssign [(EName "converted_path")] (ECall (EAttr (EName "self") "_convert_path") [(EName "_path")] []);
   SExpr (ECall (EAttr (EName "self") "_require_valid_path") [(EName "converted_path")] []);
   SExpr (ECall (EName "require_positive_value") [(EName "_amount")] []);
   SAssign [(EName "amount")] (EName "_amount");
   SAssign [(EName "from_token_address")] (ESub (EName "converted_path") (EInt 0));
   SFor "i" (ECall (EName "range") [(EInt 1); (ECall (EName "len") [(EName "converted_path")] []); (EInt 2)] [])
    [SAssign [(EName "to_token_address")] (ESub (EName "converted_path") (EBin BAdd (EName "i") (EInt 1)));
     SAssign [(EName "flexible_token")] (ECall (EAttr (EName "self") "create_interface_score") [(ESub (EName "converted_path") (EName "i")); (EName "FlexibleToken")] []);
     SAssign [(EName "converter")] (ECall (EAttr (EName "self") "create_interface_score") [(ECall (EAttr (EName "flexible_token") "getOwner") [] []); (EName "Converter")] []);
     SAssign [(EName "amount")] (ESub (ECall (EAttr (EName "converter") "getReturn") [(EName "from_token_address"); (EName "to_token_address"); (EName "amount")] []) (EStr "amount"));
     SAssign [(EName "from_token_address")] (EName "to_token_address")];
   SReturn (Some (EName "amount"))].
(* contracts/network/network.py:77-84 *)
Definition meth_Network_getIcxTokenRegistered : fundef :=
  FunDef "getIcxTokenRegistered" [("self", None); ("_icxToken", None)] [(ECall (EName "external") [] [("readonly", (EBool true))])]
  [SReturn (Some (ESub (EAttr (EName "self") "_icx_tokens") (EName "_icxToken")))].
(* contracts/network/network.py:87-89 *)
Definition meth_Network__convert_path : fundef :=
  FunDef "_convert_path" [("path", None)] [(EName "staticmethod")]
  [SAssign [(EName "converted_path")] (ECall (EName "map") [(ELambda ["address"] (ECall (EAttr (EName "address") "strip") [] [])); (ECall (EAttr (EName "path") "split") [(EStr ",")] [])] []);
   SReturn (Some (EListComp (ECall (EAttr (EName "Address") "from_string") [(EName "address")] []) ["address"] (EName "converted_path") []))].
(* contracts/network/network.py:91-121 *)
Definition meth_Network__convert_bytes_data : fundef :=
  FunDef "_convert_bytes_data" [("self", None); ("data", None); ("token_sender_address", None)] []
  [SAssign [(EName "result_dict_data")] (ECall (EName "dict") [] []);
   SAssign [(EName "dict_data")] (ECall (EName "dict") [] []);
   STry
    [SAssign [(EName "dict_data")] (ECall (EName "json_loads") [(ECall (EAttr (EName "data") "decode") [] [("encoding", (EStr "utf-8"))])] []);
     SAssign [(ESub (EName "result_dict_data") (EStr "path"))] (ECall (EAttr (EName "self") "_convert_path") [(ESub (EName "dict_data") (EStr "path"))] []);
     SAssign [(ESub (EName "result_dict_data") (EStr "minReturn"))] (ESub (EName "dict_data") (EStr "minReturn"))]
    [[SExpr (ECall (EName "revert") [(EStr "data's encoding type is invalid. utf-8 is valid encoding type.")] [])]; [SExpr (ECall (EName "revert") [EFString] [])]; [SExpr (ECall (EName "revert") [EFString] [])]; [SExpr (ECall (EName "revert") [(ECall (EName "str") [(EName "e")] [])] [])]];
   SExpr (ECall (EName "require") [(ECall (EName "isinstance") [(ESub (EName "result_dict_data") (EStr "minReturn")); (EName "int")] []); (EStr "need valid minReturn data")] []);
   SIf (EOrL [(ECompare (EStr "for") [(CNotIn, (EName "dict_data"))]); (ECompare (ESub (EName "dict_data") (EStr "for")) [(CIs, ENone)])])
    [SAssign [(ESub (EName "result_dict_data") (EStr "for"))] (EName "token_sender_address")]
    [SAssign [(ESub (EName "result_dict_data") (EStr "for"))] (ECall (EAttr (EName "Address") "from_string") [(ESub (EName "dict_data") (EStr "for"))] [])];
   SReturn (Some (EName "result_dict_data"))].
(* contracts/network/network.py:123-135 *)
Definition meth_Network__require_valid_path : fundef :=
  FunDef "_require_valid_path" [("self", None); ("path", None)] []
  [SAssign [(EName "path_len")] (ECall (EName "len") [(EName "path")] []);
   SExpr (ECall (EName "require") [(EAndL [(ECompare (EInt 2) [(CLt, (EName "path_len")); (CLe, (EBin BAdd (EBin BMul (EAttr (EName "self") "_MAX_CONVERSION_COUNT") (EInt 2)) (EInt 1)))]); (ECompare (EBin BMod (EName "path_len") (EInt 2)) [(CEq, (EInt 1))])]); (EStr "invalid path")] []);
   SAssign [(EName "path_set")] (ESetComp (EName "address") ["i"; "address"] (ECall (EName "enumerate") [(EName "path")] []) [(ECompare (EBin BMod (EName "i") (EInt 2)) [(CEq, (EInt 1))])]);
   SExpr (ECall (EName "require") [(ECompare (ECall (EName "len") [(EName "path_set")] []) [(CEq, (EBin BFloorDiv (EName "path_len") (EInt 2)))]); (EStr "do not support circular path")] [])].
(* contracts/network/network.py:138-149 *)
Definition meth_Network_registerIcxToken : fundef :=
  FunDef "registerIcxToken" [("self", None); ("_icxToken", None); ("_register", None)] [(EName "external")]
  [SExpr (ECall (EAttr (EName "self") "require_owner_only") [] []);
   SExpr (ECall (EName "require_valid_address") [(EName "_icxToken")] []);
   SExpr (ECall (EName "require_not_this") [(EAttr (EName "self") "address"); (EName "_icxToken")] []);
   SAssign [(ESub (EAttr (EName "self") "_icx_tokens") (EName "_icxToken"))] (EName "_register")].
(* contracts/network/network.py:152-183 *)
Definition meth_Network_tokenFallback : fundef :=
  FunDef "tokenFallback" [("self", None); ("_from", None); ("_value", None); ("_data", None)] [(EName "external")]
  [SIf (ECompare (EName "_data") [(CEq, (EBytes "conversionResult"))])
    [SReturn None]
    [];
   SAssign [(EName "dict_data")] (ECall (EAttr (EName "self") "_convert_bytes_data") [(EName "_data"); (EName "_from")] []);
   SExpr (ECall (EName "require") [(ECompare (ESub (ESub (EName "dict_data") (EStr "path")) (EInt 0)) [(CEq, (EAttr (EAttr (EName "self") "msg") "sender"))]); (EStr "wrong access, only token can call this method")] []);
   SExpr (ECall (EName "require_positive_value") [(ESub (EName "dict_data") (EStr "minReturn"))] []);
   SExpr (ECall (EName "require_valid_address") [(ESub (EName "dict_data") (EStr "for"))] []);
   SExpr (ECall (EAttr (EName "self") "_require_valid_path") [(ESub (EName "dict_data") (EStr "path"))] []);
   SExpr (ECall (EAttr (EName "self") "_convert_for_internal") [(ESub (EName "dict_data") (EStr "path")); (EName "_value"); (ESub (EName "dict_data") (EStr "minReturn")); (ESub (EName "dict_data") (EStr "for"))] [])].
(* contracts/network/network.py:187-198 *)
Definition meth_Network_convert : fundef :=
  FunDef "convert" [("self", None); ("_path", None); ("_minReturn", None)] [(EName "external"); (EName "payable")]
  [SReturn (Some (ECall (EAttr (EName "self") "convertFor") [(EName "_path"); (EName "_minReturn"); (EAttr (EAttr (EName "self") "msg") "sender")] []))].
(* contracts/network/network.py:202-228 *)
Definition meth_Network_convertFor : fundef :=
  FunDef "convertFor" [("self", None); ("_path", None); ("_minReturn", None); ("_for", None)] [(EName "external"); (EName "payable")]
  [SAssign [(EName "converted_path")] (ECall (EAttr (EName "self") "_convert_path") [(EName "_path")] []);
   SExpr (ECall (EAttr (EName "self") "_require_valid_path") [(EName "converted_path")] []);
   SExpr (ECall (EName "require_positive_value") [(EName "_minReturn")] []);
   SExpr (ECall (EName "require_valid_address") [(EName "_for")] []);
   SExpr (ECall (EName "require_not_this") [(EAttr (EName "self") "address"); (EName "_for")] []);
   SAssign [(EName "icx_amount")] (EAttr (EAttr (EName "self") "msg") "value");
   SAssign [(EName "icx_token")] (ESub (EName "converted_path") (EInt 0));
   SExpr (ECall (EName "require") [(ESub (EAttr (EName "self") "_icx_tokens") (EName "icx_token")); (EStr "wrong path, first address must be icx token")] []);
   SExpr (ECall (EAttr (EAttr (EName "self") "icx") "transfer") [(EName "icx_token"); (EName "icx_amount")] []);
   SReturn (Some (ECall (EAttr (EName "self") "_convert_for_internal") [(EName "converted_path"); (EName "icx_amount"); (EName "_minReturn"); (EName "_for")] []))].
(* contracts/network/network.py:230-252 *)
Definition meth_Network__convert_for_internal : fundef :=
  FunDef "_convert_for_internal" [("self", None); ("path", None); ("amount", None); ("min_return", None); ("_for", None)] []
  [SAssign [(ETupleL [(EName "to_token_address"); (EName "amount")])] (ECall (EAttr (EName "self") "_convert_by_path") [(EName "path"); (EName "amount"); (EName "min_return"); (EName "_for")] []);
   SIf (ESub (EAttr (EName "self") "_icx_tokens") (EName "to_token_address"))
    [SAssign [(EName "icx_token")] (ECall (EAttr (EName "self") "create_interface_score") [(EName "to_token_address"); (EName "IcxToken")] []);
     SExpr (ECall (EAttr (EName "icx_token") "withdrawTo") [(EName "amount"); (EName "_for")] [])]
    [SAssign [(EName "token")] (ECall (EAttr (EName "self") "create_interface_score") [(EName "to_token_address"); (EName "IRCToken")] []);
     SExpr (ECall (EAttr (EName "token") "transfer") [(EName "_for"); (EName "amount"); (EBytes "None")] [])];
   SReturn (Some (EName "amount"))].
(* contracts/network/network.py:254-290 *)
Definition meth_Network__convert_by_path : fundef :=
  FunDef "_convert_by_path" [("self", None); ("path", None); ("amount", None); ("min_return", None); ("_for", None)] []
  [SAssign [(EName "to_token_address")] (EName "ZERO_SCORE_ADDRESS");
   SAssign [(EName "from_token_address")] (ESub (EName "path") (EInt 0));
   SAssign [(EName "from_token")] (ECall (EAttr (EName "self") "create_interface_score") [(EName "from_token_address"); (EName "IRCToken")] []);
   SAssign [(EName "data")] (ECall (EName "dict") [] []);
   SFor "i" (ECall (EName "range") [(EInt 1); (ECall (EName "len") [(EName "path")] []); (EInt 2)] [])
    [SAssign [(EName "flexible_token_address")] (ESub (EName "path") (EName "i"));
     SAssign [(EName "to_token_address")] (ESub (EName "path") (EBin BAdd (EName "i") (EInt 1)));
     SAssign [(EName "to_token")] (ECall (EAttr (EName "self") "create_interface_score") [(EName "to_token_address"); (EName "IRCToken")] []);
     SAssign [(EName "flexible_token")] (ECall (EAttr (EName "self") "create_interface_score") [(EName "flexible_token_address"); (EName "FlexibleToken")] []);
     SAssign [(EName "converter_address")] (ECall (EAttr (EName "flexible_token") "getOwner") [] []);
     SAssign [(EName "amount_before_converting")] (ECall (EAttr (EName "to_token") "balanceOf") [(EAttr (EName "self") "address")] []);
     SAssign [(ESub (EName "data") (EStr "toToken"))] (ECall (EName "str") [(EName "to_token_address")] []);
     SAssign [(ESub (EName "data") (EStr "minReturn"))] (EIf (ECompare (EName "i") [(CEq, (EBin BSub (ECall (EName "len") [(EName "path")] []) (EInt 2)))]) (EName "min_return") (EInt 1));
     SAssign [(EName "encoded_data")] (ECall (EAttr (ECall (EName "json_dumps") [(EName "data")] []) "encode") [] [("encoding", (EStr "utf-8"))]);
     SExpr (ECall (EAttr (EName "from_token") "transfer") [(EName "converter_address"); (EName "amount"); (EName "encoded_data")] []);
     SAssign [(EName "amount_after_converting")] (ECall (EAttr (EName "to_token") "balanceOf") [(EAttr (EName "self") "address")] []);
     SAssign [(EName "amount")] (EBin BSub (EName "amount_after_converting") (EName "amount_before_converting"));
     SAssign [(EName "from_token")] (EName "to_token")];
   SReturn (Some (ETupleL [(EName "to_token_address"); (EName "amount")]))].
(* contracts/network/network.py:35-290 *)
Definition class_Network : classdef :=
  ClassDef "Network" [(EName "TokenHolder")]
  [SAssign [(EName "_MAX_CONVERSION_COUNT")] (EInt 10)]
  [meth_Network___init__; meth_Network_on_install; meth_Network_on_update; meth_Network_getExpectedReturnByPath; meth_Network_getIcxTokenRegistered; meth_Network__convert_path; meth_Network__convert_bytes_data; meth_Network__require_valid_path; meth_Network_registerIcxToken; meth_Network_tokenFallback; meth_Network_convert; meth_Network_convertFor; meth_Network__convert_for_internal; meth_Network__convert_by_path].
(* contracts/network/network.py *)
Definition mod_network_network : module := PyModule "network.network" ["utility.utils"]
  [("ABCConverter", ("interfaces.abc_converter", "ABCConverter")); ("ABCIcxToken", ("interfaces.abc_icx_token", "ABCIcxToken")); ("ABCIRCToken", ("interfaces.abc_irc_token", "ABCIRCToken")); ("ABCFlexibleToken", ("interfaces.abc_flexible_token", "ABCFlexibleToken")); ("ProxyScore", ("utility.proxy_score", "ProxyScore")); ("TokenHolder", ("utility.token_holder", "TokenHolder"))]
  [("TAG", (EStr "Network")); ("IRCToken", (ECall (EName "ProxyScore") [(EName "ABCIRCToken")] [])); ("IcxToken", (ECall (EName "ProxyScore") [(EName "ABCIcxToken")] [])); ("FlexibleToken", (ECall (EName "ProxyScore") [(EName "ABCFlexibleToken")] [])); ("Converter", (ECall (EName "ProxyScore") [(EName "ABCConverter")] []))]
  []
  [class_Network].

Definition program : list module :=
  [mod_utility_utils; mod_utility_owned; mod_utility_managed; mod_utility_token_holder; mod_utility_flexible_token_controller; mod_interfaces_abc_owned; mod_interfaces_abc_token_holder; mod_interfaces_abc_irc_token; mod_interfaces_abc_icx_token; mod_interfaces_abc_flexible_token; mod_interfaces_abc_formula; mod_interfaces_abc_converter; mod_interfaces_abc_score_registry; mod_irc_token_irc_token; mod_icx_token_icx_token; mod_flexible_token_flexible_token; mod_score_registry_score_registry; mod_formula; mod_formula_fixed_map_formula; mod_converter_converter; mod_network_network].
