#!/usr/bin/env python3
"""Writes /verif/properties.jsonl (the property list is kept here so that it can be edited as text)."""
import json, os
P = []
def p(title, statement, quantifier, why, anchors):
    P.append(dict(id="C%02d" % (len(P) + 1), title=title, statement=statement,
                  quantifier=quantifier, why_tests_cant=why, anchors=anchors))
FM = "contracts/formula/fixed_map_formula.py"
CV = "contracts/converter/converter.py"
NW = "contracts/network/network.py"
IRC = "contracts/irc_token/irc_token.py"
ICX = "contracts/icx_token/icx_token.py"
FT = "contracts/flexible_token/flexible_token.py"
OW = "contracts/utility/owned.py"
MG = "contracts/utility/managed.py"
RG = "contracts/score_registry/score_registry.py"
TH = "contracts/utility/token_holder.py"
FC = "contracts/utility/flexible_token_controller.py"
UT = "contracts/utility/utils.py"

# ---- pricing formula ---------------------------------------------------------------------
p("Purchase quote is defined exactly on valid input and is never negative",
  "calculate_purchase_return rejects exactly the inputs with supply <= 0, balance <= 0, weight outside 1..1000000 (and, on the non-linear branch, deposit+balance >= 2^129); on every other input with a non-negative deposit it returns a non-negative amount, 0 for a zero deposit, and exactly floor(supply*deposit/balance) when the weight is 100%.",
  "all integers supply, balance, weight, deposit >= 0",
  "The input space is four unbounded integers; the non-linear branch goes through 127-bit fixed point log/exp with eight-way branching.",
  [FM + ": calculate_purchase_return, _power"])
p("Sale quote lies in [0, balance] and never drains the connector early",
  "calculate_sale_return rejects exactly invalid input; otherwise for 0 <= sell_amount <= supply its result is between 0 and the connector balance, and it equals the whole connector balance only when the entire supply is sold.",
  "all integers supply, balance, weight, 0 <= sell_amount <= supply",
  "A rounding excess of one unit in a fixed-point exponential would let a partial sale empty the reserve; no sample of inputs excludes it.",
  [FM + ": calculate_sale_return, _power, _optimal_exp, _general_exp"])
p("Cross-connector quote lies in [0, to_balance)",
  "calculate_cross_connector_return rejects exactly invalid input; otherwise for amount >= 0 its result is >= 0 and strictly below the target connector's balance; with equal weights it is exactly floor(to_balance*amount/(from_balance+amount)).",
  "all integer balances, weights and amounts >= 0",
  "Needs a lower bound on the fixed-point power for all inputs.",
  [FM + ": calculate_cross_connector_return, _power"])
p("The fixed-point power never exceeds the real power by more than a stated relative error",
  "For base_n >= base_d > 0 and exp_n, exp_d > 0, _power returns (result, precision) with 2^precision <= result and result/2^precision <= (base_n/base_d)^(exp_n/exp_d) * e^(8*2^-127*exp_n/exp_d), the right-hand side being real arithmetic.",
  "all integers base_n < 2^129, base_d, exp_n, exp_d",
  "Compares an integer algorithm with a transcendental function on an unbounded domain.",
  [FM + ": _power, _optimal_log, _general_log, _optimal_exp, _general_exp"])
p("Buying and immediately selling back never makes a profit (formula level)",
  "If a deposit d into a connector with balance B < 2^104 and weight w yields r tokens, then selling those r tokens against the updated supply and balance returns at most d.",
  "all supplies, balances below 2^104, weights 1..1000000, deposits",
  "An arbitrage may sit at any of astronomically many rounding boundaries.",
  [FM + ": calculate_purchase_return, calculate_sale_return"])
p("A cross conversion followed by its inverse never makes a profit (formula level)",
  "Converting a units of connector 1 into r units of connector 2 and converting these r units back against the updated balances returns at most a (balances below 2^104).",
  "all balances below 2^104, weights, amounts",
  "As C05, with two independent weights.",
  [FM + ": calculate_cross_connector_return"])
p("Every quote is bounded by the documented real-number formula",
  "Purchase, sale and cross quotes are at most the documented formula (Return = ...) evaluated in real arithmetic up to a relative error e^(8*2^-127) of the resulting supply, respectively an absolute error of 2^-104 of the paying balance.",
  "all valid inputs",
  "Real-number formula over unbounded integers.",
  [FM + ": calculate_purchase_return, calculate_sale_return, calculate_cross_connector_return"])
p("The precision finder returns the highest admissible precision",
  "_find_position_in_max_exp_array(x) returns the greatest position p in 32..127 with table[p] >= x, and 0 when there is none; it always terminates.",
  "all integers x",
  "Binary search over a 96-entry table against an unbounded argument.",
  [FM + ": _find_position_in_max_exp_array, _max_exp_array"])
p("The integer binary logarithm is exact",
  "_floor_log2(n) equals floor(log2 n) for all 1 <= n < 2^256 and both loops terminate.",
  "all n in 1..2^256-1",
  "2^256 inputs.",
  [FM + ": _floor_log2"])
p("General exponentiation never exceeds 256 bits inside the table's range",
  "For every precision 32..127 and every 0 <= x <= table[precision] >> (127-precision), all intermediate values of _general_exp stay below 2^256; and the table is maximal: the next x overflows.",
  "96 precisions times all x up to the tabulated maximum",
  "About 2^134 inputs.",
  [FM + ": _general_exp, _max_exp_array", "contracts/formula/auto_generate/common/functions.py: general_exp, safe_mul, safe_add"])
p("The generator scripts reproduce the tables and constants of the formula",
  "get_coefficients and get_max_exp_array (binary search over checked 256-bit arithmetic) produce exactly the coefficients and table embedded in the formula; the search itself is correct for every monotone predicate. The scripts for the optimal logarithm and exponential and for ln 2, computing with decimals rounded to 100 digits, produce exactly the formula's constants and nothing else.",
  "the closed tables; the search for all monotone predicates",
  "The search lemma ranges over all predicates; a test only replays the table.",
  ["contracts/formula/auto_generate/common/functions.py: get_coefficients, get_max_exp_array, binary_search, general_exp", FM + ": _max_exp_array, _general_exp"])
p("A larger deposit never yields fewer tokens",
  "For equal supply, balance and weight, a larger deposit returns at least as many tokens as a smaller one.",
  "all inputs",
  "Non-monotonic points sit at isolated algorithm switch-overs.",
  [FM + ": _power (switch between _optimal_exp and _general_exp)"])

# ---- tokens -------------------------------------------------------------------------------
p("Balances are non-negative and sum to the total supply, in every reachable state",
  "In every state reachable by any sequence of transactions, including re-entrant calls by arbitrary contracts, every IRC, ICX and flexible token has non-negative balances whose sum is totalSupply.",
  "all transaction histories, all adversarial contracts, all call depths",
  "Re-entrancy through tokenFallback gives unboundedly many interleavings.",
  [IRC + ": IRCToken._transfer, on_install", ICX + ": deposit, withdrawTo", FT + ": issue, destroy"])
p("Transfer moves exactly the value and nothing else",
  "A successful transfer(to, v) by a holder to an ordinary account has 0 <= v <= balance, decreases the sender by v, increases the recipient by v (net zero for a self transfer), leaves every other balance, the supply and every other contract untouched and logs one Transfer event; it succeeds exactly under these conditions.",
  "all states, senders, recipients, values",
  "Universal over states and amounts (self-transfer, boundary values).",
  [IRC + ": IRCToken.transfer, _transfer", ICX + ": transfer", FT + ": transfer"])
p("The ICX token is always fully backed",
  "In every reachable state and for every ICX token contract, the ICX coins it holds equal its totalSupply, so every holder can always redeem.",
  "all histories, adversarial contracts, nested withdrawals",
  "Re-entrant withdraw/deposit sequences are unbounded.",
  [ICX + ": deposit, fallback, withdraw, withdrawTo"])
p("Nobody else can spend a holder's tokens",
  "In a transaction not sent by an account h, h's balance in an IRC or ICX token never decreases whatever contracts are called; for a flexible token the same holds unless its owner destroys the tokens, which a converter never does to others.",
  "all states, all transactions by others, all adversarial contracts",
  "Needs every call chain to be considered.",
  [IRC + ": _transfer", ICX + ": withdrawTo", FT + ": destroy", CV + ": _sell"])
p("Supply changes only by deposit/withdraw, issue and destroy, with exact effects",
  "An IRC token's supply never changes. issue and destroy change the named balance and the supply by exactly the amount, only for positive amounts and only for the owner (destroy also for the holder); deposit and withdrawTo likewise.",
  "all histories; all inputs",
  "Universal over histories.",
  [FT + ": issue, destroy", ICX + ": deposit, withdrawTo", IRC])
p("Supply is accounted for by the Issuance and Destruction events",
  "At every transaction boundary, for each ICX or flexible token, totalSupply equals the supply at installation plus all logged Issuance amounts minus all logged Destruction amounts.",
  "all histories, adversarial contracts",
  "History property; nested calls delay the Destruction event.",
  [FT + ": issue, destroy", ICX + ": deposit, withdrawTo"])
p("Transfer events alone reconstruct token balances",
  "Replaying a token's Transfer events from installation gives each account's balance.",
  "all histories",
  "History property.",
  [ICX + ": withdrawTo (emits Destruction but no Transfer)"])
p("Disabled transfers are really disabled, and only the owner can disable them",
  "While transfers of a flexible token are disabled every transfer call fails; only the token's owner can change the switch; issue and destroy remain possible.",
  "all states, callers and inputs",
  "Universal over states and callers.",
  [FT + ": transfer, require_transfer_allowed, disableTransfer"])
p("Tokens cannot be sent by transfer to contracts that do not handle them",
  "transfer to a contract address at which no contract lives or whose contract has no tokenFallback (tokens, registry) always fails.",
  "all states and amounts",
  "Universal over states.",
  [IRC + ": _transfer (tokenFallback call)"])

# ---- ownership -------------------------------------------------------------------------------
p("Ownership moves only by nomination and acceptance",
  "In one transaction the owner of any contract changes only if the transaction is sent by the pending owner (or owner/pending owner is itself a contract); the pending owner changes only if the owner or the pending owner acts. Third parties can do neither, whatever contracts they call.",
  "all reachable states, all transactions, all adversarial contracts",
  "All call chains of all third parties.",
  [OW + ": transferOwnerShip, acceptOwnerShip, require_owner_only"])
p("Exact two-step hand-over",
  "transferOwnerShip(n) succeeds exactly for the owner and n different from the owner and only sets the pending owner; acceptOwnerShip succeeds exactly for the pending owner, makes it owner and clears the nomination to the zero address, which nobody can accept.",
  "all states and callers",
  "Universal over states.",
  [OW + ": transferOwnerShip, acceptOwnerShip"])
p("Administrative calls fail for everybody without the role",
  "Every owner-only method of every contract (issue, disableTransfer, withdrawTokens, transferTokenOwnership, acceptTokenOwnership, disableTokenTransfers, withdrawFromToken, addConnector, updateConnector, disableConnectorPurchases, registerIcxToken, registerAddress, unregisterAddress) fails unless the caller is the owner; every manager-or-owner method fails unless the caller is one of the two.",
  "all states, callers, arguments",
  "Universal over states and callers.",
  [OW, MG, TH, FC, FT, CV, NW, RG])
p("The deployer of a converter is its first manager",
  "After installing a converter its manager is the deployer.",
  "all installations",
  "Concerns the combination of on_install methods over the inheritance order.",
  [MG + ": on_install", CV + ": on_install", FC + ": on_install"])
p("Management hand-over",
  "The converter's manager changes only to an address nominated by the owner or manager and only by that address's own acceptance.",
  "all states and callers",
  "Universal over states and callers.",
  [MG + ": transferManagement, acceptManagement"])

# ---- converter ---------------------------------------------------------------------------------
p("Connector weights are always consistent",
  "In every reachable state of a converter each listed connector is set, has weight 1..1000000, no connector is listed twice, the flexible token and the converter itself are never connectors, and the total weight equals the sum of the weights and is at most 1000000.",
  "all histories",
  "Invariant over all administration histories.",
  [CV + ": addConnector, updateConnector, _require_valid_connector_weight"])
p("The conversion fee never exceeds the maximum fixed at installation",
  "In every reachable state 0 <= conversionFee <= maxConversionFee <= 1000000, and maxConversionFee, the flexible token and each connector's membership never change once set.",
  "all histories",
  "Invariant over histories.",
  [CV + ": setConversionFee, on_install, getFinalAmount"])
p("Fee arithmetic is exact and never creates value",
  "For every fee and non-negative amount, getFinalAmount is between 0 and the amount, is monotone, is the floor of amount*(1-fee)^magnitude, and quoted amount plus quoted fee equals the formula's result.",
  "all amounts, fees 0..1000000, magnitudes",
  "Unbounded integers.",
  [CV + ": getFinalAmount, get_purchase_return, get_sale_return, get_cross_connector_return"])
p("Connectors can only be added while the converter is inactive",
  "addConnector fails while the converter owns its flexible token, and fails for a token already set, an invalid weight, the flexible token, the converter itself, the zero address or a total above 100%; otherwise it adds exactly that connector.",
  "all states and arguments",
  "Universal over states.",
  [CV + ": addConnector, _require_inactive"])
p("While a converter is active its connector tokens leave it only through conversions",
  "withdrawTokens on an active converter fails for each connector token, for every caller including the owner.",
  "all states, callers, arguments",
  "Universal over states.",
  [CV + ": withdrawTokens", TH + ": withdrawTokens"])
p("Only the registered network can trade with a converter",
  "A token arriving at a converter is accepted only if it comes from the address the registry lists as Network (and is then converted) or if it is a connector token sent by the owner while the converter is inactive; all other transfers to a converter fail, so nothing is stranded.",
  "all states, senders, tokens, data",
  "Universal over states and data.",
  [CV + ": tokenFallback"])
p("The manager can fund an inactive converter",
  "A connector token sent by the manager to an inactive converter is accepted, as for the owner.",
  "all states",
  "Concerns one sub-expression evaluated on all managers.",
  [CV + ": tokenFallback (self.getManager compared without a call)"])
p("A conversion pays at least minReturn or has no effect",
  "Whenever a conversion at a converter succeeds the amount paid out is at least the requested minReturn, which must be positive; the payout is exactly the quoted final amount.",
  "all states, tokens, amounts, minReturn",
  "Universal over states.",
  [CV + ": _convert, _buy, _sell, _convert_cross_connector"])
p("Emergency switches stop trading",
  "While conversions are disabled every conversion fails; while purchases with a connector are disabled every purchase of the flexible token with it fails; selling for that connector is unaffected by the switch.",
  "all states and trades",
  "Universal over states.",
  [CV + ": _require_conversions_allowed, disableConversions, disableConnectorPurchases"])
p("A connector with purchases disabled cannot be used to buy anything",
  "While purchases with a connector are disabled (because the token is compromised), tokens of it cannot be exchanged for another connector.",
  "all states and trades",
  "Concerns which of two connectors is checked in the cross conversion.",
  [CV + ": get_cross_connector_return (checks to_connector)"])
p("Exact accounting of a purchase, a sale and a cross conversion",
  "A successful purchase mints exactly the returned amount to the trader and changes nothing else but the connector's virtual balance (+amount if enabled); a sale burns exactly the sold amount from the converter and pays exactly the returned amount, lowering the virtual balance by it; a cross conversion pays the target token and adjusts both virtual balances.",
  "all states and amounts with ordinary tokens",
  "Universal over states.",
  [CV + ": _buy, _sell, _convert_cross_connector"])
p("A conversion cannot deplete a connector unless the supply is depleted too",
  "A sale pays the whole connector balance only if the whole supply is sold; a cross conversion never pays the whole balance.",
  "all states and amounts",
  "Universal over states.",
  [CV + ": _sell, _convert_cross_connector"])
p("The executed amount equals the quote (connectors without virtual balance)",
  "A conversion through a converter whose connectors use real balances yields exactly the amount getReturn quoted in the state before the tokens were sent.",
  "all states, tokens, amounts",
  "Universal over states.",
  [CV + ": getReturn, get_purchase_return, _buy, _sell, _convert_cross_connector"])
p("The executed amount equals the quote (virtual balances)",
  "The same with virtual balances enabled.",
  "all states, tokens, amounts",
  "Universal over states.",
  [CV + ": get_purchase_return (subtracts amount although the virtual balance was not yet increased), get_cross_connector_return"])
p("Registry update and restore",
  "updateRegistry succeeds exactly if updates are allowed or the caller is the owner and the current registry points to another non-zero registry; it then remembers the old registry; restoreRegistry (owner or manager) switches back and blocks further updates by outsiders.",
  "all states and callers",
  "Universal over states.",
  [CV + ": updateRegistry, restoreRegistry, disableRegistryUpdate"])
p("After a restore only the owner can allow future registry updates",
  "As documented in restoreRegistry: once restored, nobody but the owner can re-enable registry updates.",
  "all states and callers",
  "Concerns who may call another method afterwards.",
  [CV + ": restoreRegistry, disableRegistryUpdate"])

# ---- network --------------------------------------------------------------------------------------
p("Path validation",
  "A path is accepted exactly if it has odd length between 3 and 21 and its flexible tokens (odd positions) are pairwise distinct.",
  "all lists of addresses",
  "All lists.",
  [NW + ": _require_valid_path"])
p("Path text codec",
  "Joining the textual addresses with commas, with any amount of white space around them, and parsing the path gives the same addresses; a path containing anything that is not an address is rejected.",
  "all lists of addresses and all paddings",
  "Unbounded strings.",
  [NW + ": _convert_path"])
p("Conversion request decoding",
  "A token transfer to the network is accepted only if its data is the conversion-result marker or a dictionary with a parsable path starting with the calling token and an integer minReturn > 0; 'for' defaults to the sender; everything else fails.",
  "all data payloads",
  "Unbounded payloads.",
  [NW + ": tokenFallback, _convert_bytes_data"])
p("The network never loses tokens or coins",
  "In a transaction whose sender neither owns nor is nominated to own the network, the network's balance in every IRC, ICX and flexible token with a benign owner never decreases, and its ICX balance is unchanged, whatever path, contracts and re-entrant calls are involved.",
  "all reachable states, all transactions, all adversarial contracts",
  "Unbounded re-entrancy.",
  [NW + ": _convert_by_path, _convert_for_internal, convertFor, tokenFallback"])
p("End-to-end: the recipient gets at least minReturn or the transaction fails",
  "If a conversion request through the network succeeds and the last converter on the path is genuine, the recipient's balance of the final token grows by at least minReturn.",
  "all states, paths and amounts",
  "Multi-contract, all path lengths.",
  [NW + ": _convert_by_path, _convert_for_internal", CV + ": _convert"])
p("The network itself enforces minReturn for every path",
  "If a conversion request with minReturn m succeeds the recipient receives at least m, whatever contracts the path names.",
  "all paths, including hostile converters",
  "Needs a hostile contract.",
  [NW + ": _convert_by_path (minReturn is only forwarded to the converter)"])
p("End-to-end quote equals execution",
  "If every contract on the path is genuine and uses real balances, converting v along the path delivers exactly getExpectedReturnByPath(path, v) of the state before the transaction to the recipient, and leaves no residue in the network.",
  "all states, all path lengths 1..10 hops, all amounts",
  "Multi-contract, all path lengths.",
  [NW + ": getExpectedReturnByPath, tokenFallback, convertFor, _convert_by_path"])
p("Queries do not change state",
  "A successful call of any read-only method leaves every balance, contract and log entry unchanged, even if it calls arbitrary other contracts.",
  "all states, methods, adversarial contracts",
  "All call chains.",
  ["all @external(readonly=True) methods"])
p("ICX conversions only start from a registered ICX token",
  "convert and convertFor fail unless the first path element is registered as ICX token by the network owner, minReturn is positive and the recipient is neither the zero address nor the network.",
  "all states and arguments",
  "Universal over states.",
  [NW + ": convert, convertFor, registerIcxToken"])
p("Every token sent to the network is either converted or rejected",
  "No successful token transfer to the network leaves the transferred tokens in the network.",
  "all states and payloads",
  "Needs the special marker payload.",
  [NW + ": tokenFallback (b'conversionResult' accepted from anybody)"])

# ---- registry, utilities ----------------------------------------------------------------------------
p("Score registry maps names to contract addresses",
  "In every reachable state only the names ScoreRegistry and Network can be registered and only non-zero contract addresses; getAddress returns the last registered address or the zero address after unregistering; a fresh registry lists itself.",
  "all histories",
  "Invariant over histories.",
  [RG + ": registerAddress, unregisterAddress, getAddress, on_install"])
p("Contracts keep their identity",
  "No transaction changes the kind of an installed contract, removes it, or changes a token's name, symbol and decimals or a converter's flexible token.",
  "all histories, adversarial contracts",
  "Invariant over histories.",
  [IRC, ICX, FT, CV, NW, RG])
p("Failed transactions have no effect",
  "A transaction that reverts anywhere in its call tree leaves no trace: no nested update of any contract survives, and an error inside a genuine contract is never swallowed.",
  "all transactions",
  "Every crash point of every call tree.",
  [UT + ": require, safe_sub", CV + ": tokenFallback (try/except)", NW + ": _convert_bytes_data (try/except)"])
p("Storage wrapper reads back the last write",
  "For any sequence of attribute writes on a Storage object, reading a declared VarDB field returns the last value written to it (or the type's default), and writes to one field never affect another.",
  "all field lists and write sequences",
  "Unbounded write sequences.",
  ["contracts/utility/storage.py: Storage.add_fields, __setattr__, __getattribute__"])
p("Proxy classes are created once and expose exactly the abstract methods",
  "ProxyScore returns the same interface class for the same abstract class on every call and the class has exactly one interface function per abstract method of the given class, including inherited ones.",
  "all sequences of requests",
  "Unbounded request sequences.",
  ["contracts/utility/proxy_score.py: ProxyScore.__new__, _create_proxy_class, _get_interface_function"])
p("Package builder copies each contract with its declared dependencies",
  "For every directory tree and contract list, each built package contains exactly the contract's own files except tests and caches, its declared dependencies and, if declared, the NOTICE; package.json lands at the package root.",
  "all directory trees",
  "Unbounded directory trees.",
  ["contract_generator/builder.py: Builder", "contract_generator/config.py", "contract_generator/writer.py: FileWriter.write"])

p("Outsiders cannot change any setting",
  "In a transaction whose sender is neither owner, nominated owner, manager nor nominated manager of a contract (nor able to act through another contract that is), no setting of that contract changes: owner, manager, nominations, transfer switch, connectors and their weights, virtual-balance flags and purchase switches, fee, conversion switch, ICX-token registrations and registry entries.",
  "all states, transactions, adversarial contracts",
  "Needs every call chain to be considered.",
  [OW, MG, TH, FC, FT, CV, NW, RG])
p("Settings can be read off the event log",
  "The owner of a contract is the new owner in its latest OwnerUpdate event (the previous owner if there is none); a converter's manager, fee and conversion switch are those of its latest ManagerUpdate, ConversionFeeUpdate and ConversionsEnable events (none, 0 and enabled if there are none).",
  "all histories, adversarial contracts",
  "Relates the state to the whole history.",
  [OW + ": OwnerUpdate", MG + ": ManagerUpdate", CV + ": ConversionFeeUpdate, ConversionsEnable"])

p("No sequence of trades drains a converter (conversion formula)",
  "However many purchases, sales and cross conversions are made, in any order and mixed with gifts to the reserves and destructions of the flexible token, each paying at most what the formula returns for the balances of the moment: the weighted geometric mean of the reserves never falls against the supply of the flexible token except for the stated rounding; no reserve shrinks unless flexible tokens were given up or another reserve grew; no flexible tokens come out unless some reserve grew.",
  "all numbers of connectors, weights, reserves, supplies and sequences of trades",
  "Unbounded sequences of trades over unbounded integers; each single trade may look harmless.",
  [FM + ": calculate_purchase_return, calculate_sale_return, calculate_cross_connector_return"])

p("No history of transactions by outsiders drains a converter",
  "Take an active converter whose network, registry, flexible token and connector tokens are genuine contracts, without virtual balances. After any number of transactions, sent by anybody who is neither (nominated) owner nor manager of these contracts (nor able to act through a contract that is), with the help of any malicious contracts: settings are unchanged, supply and reserves have changed only by conversions at the formula's price (one for each Conversion event) and by gifts; no reserve has shrunk unless flexible tokens were given up or another reserve has grown, and no flexible tokens have come out unless a reserve has grown - except for rounding that would take about 10^24 conversions to gain one unit.",
  "all states, histories of outsiders' transactions, adversarial contracts, re-entrancy, amounts",
  "Unbounded histories with arbitrary contracts calling back in the middle of a conversion.",
  [CV + ": _convert, _buy, _sell, _convert_cross_connector", NW, FT, TH, RG, FM])

p("Quotes are accurate: no trader is short-changed by the approximation",
  "Every purchase, sale and cross quote is at least the documented real formula, minus one unit and a relative error of 2^-114 (purchase) or 2^-100 (sale, cross) in the power; only where the power exceeds 8,000,000 it is merely known to be computed as at least 8,000,000. The exponentiation itself has the same accuracy.",
  "all supplies, balances, weights and amounts for which the quote succeeds",
  "Real-number error bounds over unbounded inputs; tests compare a few values with a tolerance.",
  [FM + ": _power, _general_log, _optimal_log, _general_exp, _optimal_exp, calculate_purchase_return, calculate_sale_return, calculate_cross_connector_return"])

p("Exactly which conversions succeed",
  "On genuine contracts a conversion request (with tokens, or with coins through convert/convertFor) succeeds exactly when: the path is well-formed, the minimum return positive, the sender has the (positive) amount, and at every step, with the amount received from the step before: the token may be transferred, the converter is registered with this network, enabled and active and trades the pair, the formula succeeds, and the result is at least 1 (minReturn at the last step) and can be paid out; and the final token can be paid to a user. No other condition - no other account's state or earlier history - can make it fail, given enough call depth. A request that succeeds also succeeds for any other beneficiary and any lower minimum.",
  "all reachable states, networks, paths, amounts, minimum returns, senders and beneficiaries (externally owned)",
  "Liveness for every state and path; a test observes single successes and single rejections.",
  ["contracts/network/network.py: tokenFallback, convert, convertFor, _convert_for_internal, _convert_by_path", "contracts/converter/converter.py: tokenFallback, _convert, _buy, _sell, _convert_cross_connector"])

p("Requests in transfer data are read as written, and nothing else is a request",
  "The bytes sent with a token transfer are a conversion request exactly if they are the UTF-8 form of a JSON object - with any white space, order of keys, further keys and escapes; the last of repeated keys counts - with a 'path' text as documented, an integer 'minReturn' and no, a null or an address 'for'. The network reads exactly that path, minimum and beneficiary, and refuses tokens that come with anything else than a request for a path starting with the token sent, or the word conversionResult. JSON that the contracts write is read back unchanged; the bytes the network sends to a converter ask for exactly the token and the minimum it means.",
  "all byte strings, texts, JSON values, addresses and integers",
  "Infinitely many texts for each value; tests use a handful of hand-written payloads.",
  ["contracts/network/network.py: _convert_bytes_data, tokenFallback, _convert_by_path", "contracts/converter/converter.py: tokenFallback"])

p("Virtual balances let an outsider drain a converter by a round trip",
  "One expects (C62) that an outsider cannot take value out of a converter by buying and selling back. With a virtual balance B of the token paid he can: the purchase is executed at a balance lowered by the amount a paid, the sale at the true one. Without fees a purchase for a and the sale of what was bought gains a^2/B - for every weight and supply, exactly in real arithmetic, and up to one unit and 4B(2^-94 + 10^6/(weight*supply)) in the contract (if B <= 8000000(B-a)) -, everything else being as before. In a reachable state with a fee of 0.3% an outsider takes away 99% of the virtual balance with two transactions.",
  "all states with genuine contracts and a virtual balance, all amounts, weights and supplies",
  "The gain is a property of a pair of calls for all real weights; tests check single conversions against recorded amounts.",
  ["contracts/converter/converter.py: get_purchase_return, _buy, _sell, getConnectorBalance", "contracts/formula/fixed_map_formula.py: calculate_purchase_return, calculate_sale_return"])

p("Splitting an order in two gains or costs at most rounding",
  "Two purchases one after the other - the second one at the supply and balance the first one leaves - together issue at most one unit more than a single purchase for the sum, and at least the single purchase's amount less the power (1 + d2/(balance+d1))^(weight/10^6) and two units (documented power at most 8000000, supply after it below 2^112). Two sales, or two exchanges of a connector for another, pay between two units less and one unit more than the single one (balance below 2^96, documented power at least 1/8000000). So there is no advantage in splitting an order to beat the formula.",
  "all supplies, balances, weights and all splittings of an amount for which the three calls succeed",
  "A statement about three calls whose inputs depend on one another, for all amounts; tests compare single calls with recorded outputs.",
  ["contracts/formula/fixed_map_formula.py: calculate_purchase_return, calculate_sale_return, calculate_cross_connector_return, power"])
p("Without fees a round trip costs no more than rounding",
  "C05 and C06 say that buying and selling back never gains. It also costs next to nothing: selling what was bought for a deposit d returns at least d - 2 - 2*balance*(10^6/weight)/(supply+bought), that is two units and twice the price of one smallest unit of the flexible token (deposit at most 3999999 times the balance, balance below 2^91, weight*(supply+bought) at least 4000000). Exchanging a connector for another and back returns at least the amount less one unit, the price of four smallest units of the other connector, and balance/2^77.",
  "all supplies, balances, weights and amounts in the stated range for which both calls succeed",
  "The loss is an infimum over all real weights and amounts; tests check literal amounts with tolerances.",
  ["contracts/formula/fixed_map_formula.py: calculate_purchase_return, calculate_sale_return, calculate_cross_connector_return, power"])

p("Bystanders cannot stop trading or lock holders in",
  "Take a path through genuine contracts that is open for trading: tokens transferable, converters active, enabled, registered with the network and without virtual balances. After any number of transactions by anybody who is neither (nominated) owner nor manager of these contracts (nor able to act through a contract that is), with the help of any malicious contracts, a conversion along the path, with tokens or with coins, still succeeds exactly when the sender has the positive amount he sends and the formula, at the present supply and balances and less the fees, gives at every step at least 1 and at the last step at least the positive minimum asked for. In particular a holder of flexible tokens can at any time sell any part of his holding for any connector token at the formula's price, with any positive minimum up to that price (total supply below 2^129): bystanders can move the price, never block the exit, change the fee or drain the connector he is paid in.",
  "all states, paths, histories of bystanders' transactions with adversarial contracts, amounts, minimum returns, senders and beneficiaries (externally owned)",
  "Liveness after an arbitrary history; a test can only try particular ways of getting in the way.",
  ["contracts/network/network.py: tokenFallback, convert, convertFor, _convert_by_path", "contracts/converter/converter.py: tokenFallback, _convert, disableConversions, updateConnector, addConnector", "contracts/flexible_token/flexible_token.py: disableTransfer", "contracts/utility/owned.py", "contracts/utility/managed.py", "contracts/score_registry/score_registry.py"])

p("Every built package is complete",
  "Whichever configured contracts are built, from wherever: every module loaded when a package is loaded - its main module, what that imports, what those import, and the packages they are in - is in the package where the import looks for it, and is the repository's module of that name; so is the package.json.",
  "all lists of configured contracts, source roots, directory trees holding the repository's modules, chains of imports",
  "a test of a package needs the platform and exercises one build; a missing dependency shows only when the module that needs it is loaded",
  ["contract_generator/config.py:config", "contract_generator/builder.py:Builder", "contracts/**: import statements"])
p("An interrupted build damages nothing else and is repaired by building again",
  "Wherever a build to the file system is stopped - by an error, a kill or a crash, between or in the middle of files - files outside the package directories are untouched, the package directories hold only files that were there before or belong to the package, and building again gives exactly the disk that the uninterrupted build would have given.",
  "all disks, package lists and crash points",
  "crash points between and inside file operations cannot be enumerated by tests",
  ["contract_generator/writer.py:FileWriter.write", "contract_generator/builder.py:Builder.build"])
p("The build tool: unknown names change nothing, clean removes only build - but it works only in its own directory",
  "build.py with any unknown contract name changes nothing on disk, even for the known names beside it; clean removes exactly the build directory and says whether there was one, whatever follows it; otherwise exactly the named contracts (all if none is named) are built into build beside the script. One expects this from every current directory, since paths are computed from the script's place; in fact the NOTICE is taken from the current directory, so where there is none every build of anything but irc_token fails.",
  "all argument lists, disks and directories",
  "the argument lists, disks and current directories are unbounded",
  ["build.py:main", "build.py:write_contracts_to_file_system", "build.py:clean_build_dir", "contract_generator/builder.py:Builder._append_notice_on_path_list", "contract_generator/writer.py:FileWriter.clean"])

p("Settings change only by a direct administrative call",
  "No transaction changes the settings of a token, converter, network or registry (owner, nominated owner, manager, nominated manager, transferability, connectors, weights, fee, enabling flags, registered ICX tokens, registered addresses, and the registry itself once registry updates are disabled) unless the transaction itself is a direct call, without coins, of an administrative method on that contract (or on the converter that owns it as its smart token, or on one that owns that converter in turn) by the account entitled to that method. In particular an owner or manager who calls an unknown contract, however that contract is written, changes nothing; this holds as long as the role holders are accounts, genuine contracts or converters in the same position. If all roles of a contract are held by accounts, only direct calls to the contract itself can change its settings.",
  "every reachable state, every transaction by anyone including the owner, every behaviour of unknown contracts called on the way, every depth of calls",
  "the unknown contracts a role holder may call are arbitrary programs; tests can try only some of them",
  ["contracts/utility/owned.py", "contracts/utility/managed.py", "contracts/utility/token_holder.py", "contracts/utility/flexible_token_controller.py", "contracts/flexible_token/flexible_token.py", "contracts/converter/converter.py", "contracts/network/network.py", "contracts/score_registry/score_registry.py"])
p("An account's tokens leave it only by its own direct call",
  "A transaction lowers an account's balance of an IRC or ICX token only if it is that account's own direct call, without coins, of transfer, withdraw or withdrawTo on that very token, and then by at most the amount named in the call, whatever contracts are called in consequence. For a flexible token whose owner is an account, a genuine contract or a converter in such hands: only by the account's own direct transfer or destroy, or by a direct destroy of its tokens by the account that owns the token, again by at most the amount named. Calling any other contract can never cost an account its tokens.",
  "every reachable state, every transaction by anyone including the holder, every behaviour of unknown contracts, every depth of calls and callbacks",
  "receiving contracts and callees are arbitrary programs that may call back into every contract",
  ["contracts/irc_token/irc_token.py: transfer, _transfer", "contracts/icx_token/icx_token.py: transfer, withdraw, withdrawTo", "contracts/flexible_token/flexible_token.py: transfer, destroy", "contracts/converter/converter.py: tokenFallback", "contracts/network/network.py: convert, convertFor, tokenFallback"])
p("An account's coins leave it only as the amount attached",
  "A transaction lowers an account's coins by at most the amount that account itself attached to it; transactions of other accounts never lower them, nor does a deployment, whatever the called contracts do.",
  "every state, every transaction, every behaviour of unknown contracts",
  "callees are arbitrary programs",
  ["contracts/icx_token/icx_token.py: deposit, withdrawTo", "contracts/network/network.py: convert, convertFor"])

p("Every quotation of the formula source ends, and with the quoted function's value",
  "For all integers whatsoever, the methods calculate_purchase_return, calculate_sale_return and calculate_cross_connector_return of the class FixedMapFormula, executed statement by statement from the syntax tree of their source text (loops, tables, boundaries and all), end - with an integer or an exception, never in an endless loop - and the integer (or the exception) is the one of the functions all other properties speak about.",
  "all five integer arguments, positive or not",
  "tests run the methods on chosen arguments; that no argument makes a loop endless or takes an untested branch, and that the functions reasoned about are the ones in the file, is a statement about all arguments and the text itself",
  ["contracts/formula/fixed_map_formula.py: FixedMapFormula", "contracts/utility/utils.py: require"])

p("The contract files themselves behave as all the other properties assume",
  "When the six contracts are executed statement by statement from the syntax trees of their files - inheritance and super(), module globals, decorators (external, readonly, payable, eventlog, staticmethod), default arguments, database variables, interface calls, try/except, comprehensions and loops included - every message call and every transaction, deployment included, gives in every state exactly the answer, the storages, the ICX balances and the event log that the reference semantics of the other contract properties gives, or fails exactly when it fails; no call ever reaches a statement without a defined meaning; and the states reachable by histories of transactions are the same.",
  "all transactions and message calls, all states of the world whatsoever, all behaviours of unknown contracts (re-entrant ones included), all call depths, all finite histories",
  "tests compare a few calls of mocked contracts; that no argument, state or answer of a foreign contract takes the text of a contract away from the reasoned-about semantics is a statement about all runs of the program text",
  ["contracts/irc_token/irc_token.py: IRCToken", "contracts/icx_token/icx_token.py: IcxToken", "contracts/flexible_token/flexible_token.py: FlexibleToken", "contracts/converter/converter.py: Converter", "contracts/network/network.py: Network", "contracts/score_registry/score_registry.py: ScoreRegistry", "contracts/utility: Owned, Managed, TokenHolder, FlexibleTokenController, utils"])

p("Updating a contract to its own code changes nothing",
  "When the service updates any of the six contracts to the same code, on_update succeeds and leaves everything as it was: every balance, supply, owner, manager, setting, connector, registered address and coin; it logs nothing and calls no other contract, so neither an owner nor a token balance can be lost or reset by an upgrade.",
  "all contracts of the six kinds, all states of the world whatsoever, every account that asks for the update",
  "a test updates one contract in one state; that no state makes on_update fail or write quantifies over all of them",
  ["contracts/utility/owned.py: on_update", "contracts/utility/managed.py: on_update", "contracts/utility/token_holder.py: on_update", "contracts/utility/flexible_token_controller.py: on_update", "contracts/irc_token/irc_token.py: on_update", "contracts/icx_token/icx_token.py: on_update", "contracts/flexible_token/flexible_token.py: on_update", "contracts/score_registry/score_registry.py: on_update", "contracts/converter/converter.py: on_update", "contracts/network/network.py: on_update"])

p("Message calls among the contracts never nest deeper than six",
  "As long as no unknown contract is deployed, no transaction and no deployment of any of the six kinds of contracts ever needs more than six nested message calls, whatever the state, the amounts, the length of the path and the data: every call-depth limit of six or more gives the same success or failure, the same returned value and the same state, in every history. So nobody can make a transaction fail by the service's limit on nested calls, and a longer path does not nest deeper. Six are needed (a conversion by a token transfer); with unknown contracts there is no bound.",
  "all states without unknown contracts, all transactions and deployments, all limits of six or more, all histories from genesis of any length",
  "the depth of a call chain depends on the data, the registry and the wiring of tokens, converters and networks, which may be cyclic; a test follows one chain",
  ["contracts/irc_token/irc_token.py: _transfer", "contracts/network/network.py: tokenFallback, convertFor, _convert_by_path, getExpectedReturnByPath", "contracts/converter/converter.py: tokenFallback, _convert, _buy, _sell, _convert_cross_connector, getReturn", "contracts/utility/flexible_token_controller.py: withdrawFromToken", "contracts/utility/token_holder.py: withdrawTokens", "contracts/icx_token/icx_token.py: withdrawTo"])

p("The owner of a registry can drain the converters that follow it",
  "One expects (and C62 proves, as long as the registry's owner is honest) that a stranger to a converter, its flexible token and its connectors can only trade with it at the formula's price. In fact, whoever owns the registry of a converter that allows registry updates (the default) can, although the converter is active and everything around it is genuine, exchange the registry for a contract of his own and take 99% of a reserve with six transactions, giving up nothing: the converter asks the registry for the Network after the tokens of a conversion have arrived and before it computes the price, and the registry can trade in between. Switching registry updates off stops the same attempt; C62 then covers the owner of the registry like any other stranger.",
  "existence: a reachable state with a genuine set-up and a history of transactions of the registry's owner alone, checked by computation in the model",
  "a test suite with mocked or honest registries never re-enters the converter from getAddress",
  ["contracts/converter/converter.py: tokenFallback, updateRegistry, get_purchase_return", "contracts/score_registry/score_registry.py: registerAddress, getAddress"])

p("minReturn is enforced by the last converter alone",
  "C48 shows that the network does not check the minimum return. What protects the beneficiary is the last hop: if the network is genuine and the last three entries of the path are a token, a flexible token and a token of one active converter with genuine tokens and registry whose owners and managers are out of the sender's hands, then every successful conversion gives the beneficiary at least the demanded minimum in the last token (or in coins, if that is an ICX token), although all other tokens and converters on the path, and every other contract called on the way, may be malicious. This holds for token and coin conversions. The token before the last converter must be one of its tokens: otherwise a successful conversion can deliver nothing.",
  "all reachable states with such a converter, all paths ending there with arbitrary earlier hops, all amounts, minima and beneficiaries that are user accounts, all behaviours of unknown contracts",
  "a test suite uses honest converters on the whole path; the claim quantifies over the code of everything before the last hop",
  ["contracts/network/network.py: _convert_by_path, _convert_for_internal, tokenFallback, convert, convertFor", "contracts/converter/converter.py: tokenFallback, _buy, _sell, _convert_cross_connector"])

p("Virtual balances can be read off the price log - except across updateConnector",
  "The balance a connector with a virtual balance trades at (what getConnectorBalance answers) is the one in the converter's latest PriceDataUpdate event for that connector, or unchanged if there is no such event: no transaction by anybody, whatever unknown contracts are called or re-enter on the way, leaves the two apart. The one exception is the owner's updateConnector, which sets any virtual balance and logs nothing, so that the log is then wrong until the next conversion.",
  "all reachable states, converters whose owner and nominated owner are accounts; connectors with a virtual balance and all transactions and histories without a direct updateConnector of this connector; connectors without one whose token is an IRC2 or ICX token contract and all transactions and histories without a transaction sent by the owner; all behaviours of unknown contracts (also as the converter's own token, registry and network)",
  "re-entrant conversions between the update of the balance and the event can only be enumerated by quantifying over the code of unknown contracts",
  ["contracts/converter/converter.py: _buy, _sell, _convert_cross_connector, getConnectorBalance, updateConnector, PriceDataUpdate"])

p("Flexible tokens are issued only in announced conversions",
  "While a converter in the hands of accounts owns its flexible token (and no contract is nominated for the token), no transaction by anybody - the converter's owner and manager included, whatever unknown contracts are called or re-enter on the way, whatever the registry and the network are - issues a token other than in a conversion: the token's Issuance events and the converter's Conversion events into the token name the same amounts in the same order. So the supply is what it was, plus the amounts bought, minus the amounts destroyed. Only a direct call that hands over the ownership of converter or token can end this state.",
  "all reachable states in which the converter owns its flexible token and the roles are held by accounts, all transactions and histories, all behaviours of unknown contracts (as connector tokens, registry and network)",
  "a hidden path to issue (re-entry, a forwarded call, a role reached through another contract) is excluded only by considering every caller, every message and every nesting",
  ["contracts/flexible_token/flexible_token.py: issue", "contracts/converter/converter.py: _buy, tokenFallback", "contracts/utility/flexible_token_controller.py: transferTokenOwnership", "contracts/utility/owned.py: acceptOwnerShip"])

p("A converter pays out genuine tokens only in conversions it announces - unless its owner acts",
  "As long as the roles of a converter are held by accounts and its owner sends no transaction, what the converter pays out in a genuine IRC2 or ICX token (the Transfer events of that token) is in total exactly what its Conversion events into the token say it returned: whoever transacts, whatever unknown contracts are called or re-enter during a payment, and whatever the registry, the network, the converter's own token and the other connectors are. So in either sort of token the converter's balance is what it was, plus what it received, minus the amounts returned that it announced. The owner can withdraw from an inactive converter without any announcement.",
  "all reachable states, converters whose owner and nominated owner are accounts, IRC2 and ICX tokens other than the converter's own token, all transactions and histories without a transaction sent by the owner, all behaviours of unknown contracts",
  "the recipient of a payment may be unknown code that starts further conversions before the payment is logged, to any depth",
  ["contracts/converter/converter.py: _sell, _convert_cross_connector, withdrawTokens, Conversion", "contracts/irc_token/irc_token.py: transfer, _transfer", "contracts/icx_token/icx_token.py: transfer"])

# Where the expected property is false of the code, the statement says what is expected, how the code deviates and what is true.
def re(i, title, statement):
    P[i - 1]["title"] = title
    P[i - 1]["statement"] = statement
re(19, "Transfer events reconstruct balances - except withdrawals from the ICX token",
   "For an IRC or flexible token, the balance of each account (other than the token contract itself) is its initial supply plus the amounts received minus the amounts sent according to the Transfer events. For the ICX token this expectation fails, because withdraw/withdrawTo log no Transfer: the events overstate the balance and never understate it - except for converters, which never withdraw: their balance of any token, the ICX token too, changes exactly as the Transfer events say.")
re(25, "The deployer of a converter is NOT its first manager",
   "One expects (Managed.on_install) the deployer to be the first manager. In fact a converter has no manager after installation, and the owner alone can appoint the first one.")
re(33, "The manager can NOT fund an inactive converter",
   "One expects (tokenFallback's condition) a connector token sent by the manager to an inactive converter to be accepted. In fact the condition compares with the method object self.getManager, so such a transfer by a manager who is not the owner always fails.")
re(36, "Disabling purchases with a connector does NOT stop exchanging it for another connector",
   "One expects that tokens of a connector with disabled purchases cannot be exchanged for another connector. In fact a cross conversion checks the switch of the token bought, not of the token sold: switching purchases of the token sold changes nothing, and the trade still succeeds.")
re(40, "With virtual balances the executed amount differs from the quote in a known way",
   "One expects a conversion to yield the quoted amount. If the token sold has a virtual balance the executed amount is the formula applied to a balance lowered by the amount sold (the code subtracts it although it was not yet added), so it exceeds the quote in general, is never more than one unit below it (for trades within the formula's range), and amounts not below the virtual balance are always refused.")
re(42, "After a restore the manager, too, can allow registry updates again",
   "restoreRegistry is documented to leave re-enabling of registry updates to the owner. In fact exactly the owner and the manager can re-enable them.")
re(47, "End-to-end: the recipient gets at least minReturn or the transaction fails",
   "If a conversion request through the network succeeds and the contracts on the path are genuine, the recipient's balance of the final token (or coins, if it is a registered ICX token) grows by an amount of at least minReturn.")
re(48, "The network itself does NOT enforce minReturn",
   "One expects the recipient to receive at least minReturn whatever contracts the path names. In fact the network only forwards minReturn to the converter: a request through a flexible token that is not owned by a converter succeeds and delivers nothing.")
re(52, "Tokens sent to the network with the result marker stay there",
   "One expects every token sent to the network to be converted or rejected. In fact tokens sent by anybody with the data b'conversionResult' are accepted and stay in the network; all other accepted transfers are conversion requests, and those along genuine contracts leave nothing in the network.")
re(12, "A larger deposit can yield fewer tokens at the switch of algorithms",
   "One expects quotes to grow with the amount. In fact purchase, sale and cross quotes are not monotone: there are inputs, at the switch from one exponentiation algorithm to the other, where a larger amount yields less - but never more than one unit less, for amounts that change the power less than 8,000,000-fold and holdings below 2^99 (supplies below 2^113); the exactly computed special cases (weight 100%, equal weights) are monotone.")
re(56, "Storage wrapper reads back the last write",
   "Fields are declared once, under public names other than db. Then for any sequence of assignments to public attribute names no assignment fails, reading a declared VarDB field returns the last value assigned to it (or what the database held before, or the type's default), whatever is assigned to other names; a new Storage object over the same database reads the same; array and dictionary fields cannot be replaced by assignment.")
re(58, "Package builder copies each contract with its declared dependencies",
   "For every directory tree and contract list, each built package contains exactly the contract's own files (under name/name), except those directly in a directory called tests and those on a path mentioning __pycache__ (files in sub-directories of tests ARE packaged), its package.json at the package root, its declared dependencies and, if declared last, the NOTICE - provided the source root's text does not occur again inside the paths. Writing to disk leaves exactly these files with the sources' contents in the package directories and nothing else on disk changed; the zip archive extracts to the same files.")
re(63, "Quotes are accurate - except for deposits of millions of times the connector balance",
   "Every purchase, sale and cross quote is at least the documented real formula, minus one unit and a relative error of 2^-114 (purchase) or 2^-100 (sale, cross) in the power, while the power is below 8,000,000; above, it is computed as at least 8,000,000 (which for sales and cross conversions costs the trader at most an 8,000,000th of the balance). The exponentiation itself has the same accuracy. A power e^y with y >= 16 is computed as the Taylor polynomial of e^y of degree 33 (from below within 2^-30 for y <= 56, else within a factor of three; never more than it), so a buyer who deposits a huge multiple of the connector balance can get less than a 20,000th of the documented return.")

re(31, "While a converter is active its connector tokens leave it only through conversions",
   "withdrawTokens on an active converter fails for each connector token, for every caller including the owner. After any number of transactions by anyone, if an active converter holds less of a genuine connector token than before, then it logged a Conversion, or its flexible token logged a change of owner (the converter may have been inactive in between), or the connector is itself a flexible token that logged a destruction of the converter's tokens (its owner may do that).")

re(47, "End-to-end: the recipient gets at least minReturn or the transaction fails",
   "If a conversion request through the network succeeds and the contracts on the path are genuine, the recipient's balance of the final token (or coins, if it is a registered ICX token) grows by an amount of at least minReturn. If the recipient is a contract, the network's last call hands it that amount, and until that call only the sender, the network and the converters on the path are touched.")
re(48, "The network itself does NOT enforce minReturn",
   "One expects the recipient to receive at least minReturn whatever contracts the path names. In fact the network only forwards minReturn to the converter: whatever the state, a request through a flexible token that is owned by a user instead of a converter succeeds for every positive minReturn, gives that owner the tokens sent and delivers nothing.")
re(17, "Supply changes only by deposit/withdraw, issue and destroy, with exact effects",
   "An IRC token's supply never changes. issue and destroy change the named balance and the supply by exactly the amount, only for positive amounts and only for the owner (destroy also for the holder); deposit and withdrawTo likewise. A withdrawal to a contract lowers balance and supply before the contract's code runs.")
re(22, "Ownership moves only by nomination and acceptance",
   "In one transaction the owner of any contract changes only if the transaction is sent by the pending owner (or owner/pending owner is itself a contract); the pending owner changes only if the owner or the pending owner acts. Third parties can do neither, whatever contracts they call. If owner and pending owner (if any) are accounts, every transaction by anyone - themselves included - either leaves both as they are, or is the owner's own direct call of transferOwnerShip, which only makes the named address pending, or the pending owner's own direct call of acceptOwnerShip, which makes it owner and leaves nobody pending.")
re(62, "No history of transactions by strangers drains a converter",
   "Take an active converter whose registry, flexible token and connector tokens are genuine contracts, without virtual balances; the registered network may be anything. After any number of transactions, sent by anybody who is neither (nominated) owner nor manager of the converter, of its flexible token or of a flexible token among its connectors (nor able to act through a contract that is) - nor owner of the registry, unless registry updates are switched off -, with the help of any malicious contracts: settings are unchanged, supply and reserves have changed only by conversions at the formula's price (one for each Conversion event) and by gifts; no reserve has shrunk unless flexible tokens were given up or another reserve has grown, and no flexible tokens have come out unless a reserve has grown - except for rounding that would take about 10^24 conversions to gain one unit. If the network is genuine and the registry's owner is no such stranger, the network stays genuine.")

re(82, "Connector balances can be read off the price log - except across what the owner does",
   "What getConnectorBalance answers for a connector is the balance in the converter's latest PriceDataUpdate event for that connector, or unchanged if there is no such event. For a connector with a virtual balance: no transaction by anybody, whatever unknown contracts are called or re-enter on the way, leaves the two apart; the one exception is the owner's updateConnector, which sets any virtual balance and logs nothing, so that the log is then wrong until the next conversion. For a connector without, whose token is a genuine IRC2 or ICX token (the converter's own token, registry, network and other connectors may be unknown code): no transaction not sent by the converter's owner, who can fund the converter while it is inactive, and withdraw, leaves the log and the converter's actual balance of the token apart.")

with open(os.path.join(os.path.dirname(__file__), "..", "properties.jsonl"), "w") as f:
    for x in P:
        f.write(json.dumps(x, ensure_ascii=False) + "\n")
print(len(P))
for x in P: print(x["id"], x["title"])
