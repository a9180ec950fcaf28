{"id": "C01", "title": "Purchase quote is defined exactly on valid input and is never negative", "statement": "calculate_purchase_return rejects exactly the inputs with supply <= 0, balance <= 0, weight outside 1..1000000 (and, on the non-linear branch, deposit+balance >= 2^129); on every other input with a non-negative deposit it returns a non-negative amount, 0 for a zero deposit, and exactly floor(supply*deposit/balance) when the weight is 100%.", "quantifier": "all integers supply, balance, weight, deposit >= 0", "why_tests_cant": "The input space is four unbounded integers; the non-linear branch goes through 127-bit fixed point log/exp with eight-way branching.", "anchors": ["contracts/formula/fixed_map_formula.py: calculate_purchase_return, _power"]}
{"id": "C02", "title": "Sale quote lies in [0, balance] and never drains the connector early", "statement": "calculate_sale_return rejects exactly invalid input; otherwise for 0 <= sell_amount <= supply its result is between 0 and the connector balance, and it equals the whole connector balance only when the entire supply is sold.", "quantifier": "all integers supply, balance, weight, 0 <= sell_amount <= supply", "why_tests_cant": "A rounding excess of one unit in a fixed-point exponential would let a partial sale empty the reserve; no sample of inputs excludes it.", "anchors": ["contracts/formula/fixed_map_formula.py: calculate_sale_return, _power, _optimal_exp, _general_exp"]}
{"id": "C03", "title": "Cross-connector quote lies in [0, to_balance)", "statement": "calculate_cross_connector_return rejects exactly invalid input; otherwise for amount >= 0 its result is >= 0 and strictly below the target connector's balance; with equal weights it is exactly floor(to_balance*amount/(from_balance+amount)).", "quantifier": "all integer balances, weights and amounts >= 0", "why_tests_cant": "Needs a lower bound on the fixed-point power for all inputs.", "anchors": ["contracts/formula/fixed_map_formula.py: calculate_cross_connector_return, _power"]}
{"id": "C04", "title": "The fixed-point power never exceeds the real power by more than a stated relative error", "statement": "For base_n >= base_d > 0 and exp_n, exp_d > 0, _power returns (result, precision) with 2^precision <= result and result/2^precision <= (base_n/base_d)^(exp_n/exp_d) * e^(8*2^-127*exp_n/exp_d), the right-hand side being real arithmetic.", "quantifier": "all integers base_n < 2^129, base_d, exp_n, exp_d", "why_tests_cant": "Compares an integer algorithm with a transcendental function on an unbounded domain.", "anchors": ["contracts/formula/fixed_map_formula.py: _power, _optimal_log, _general_log, _optimal_exp, _general_exp"]}
{"id": "C05", "title": "Buying and immediately selling back never makes a profit (formula level)", "statement": "If a deposit d into a connector with balance B < 2^104 and weight w yields r tokens, then selling those r tokens against the updated supply and balance returns at most d.", "quantifier": "all supplies, balances below 2^104, weights 1..1000000, deposits", "why_tests_cant": "An arbitrage may sit at any of astronomically many rounding boundaries.", "anchors": ["contracts/formula/fixed_map_formula.py: calculate_purchase_return, calculate_sale_return"]}
{"id": "C06", "title": "A cross conversion followed by its inverse never makes a profit (formula level)", "statement": "Converting a units of connector 1 into r units of connector 2 and converting these r units back against the updated balances returns at most a (balances below 2^104).", "quantifier": "all balances below 2^104, weights, amounts", "why_tests_cant": "As C05, with two independent weights.", "anchors": ["contracts/formula/fixed_map_formula.py: calculate_cross_connector_return"]}
{"id": "C07", "title": "Every quote is bounded by the documented real-number formula", "statement": "Purchase, sale and cross quotes are at most the documented formula (Return = ...) evaluated in real arithmetic up to a relative error e^(8*2^-127) of the resulting supply, respectively an absolute error of 2^-104 of the paying balance.", "quantifier": "all valid inputs", "why_tests_cant": "Real-number formula over unbounded integers.", "anchors": ["contracts/formula/fixed_map_formula.py: calculate_purchase_return, calculate_sale_return, calculate_cross_connector_return"]}
{"id": "C08", "title": "The precision finder returns the highest admissible precision", "statement": "_find_position_in_max_exp_array(x) returns the greatest position p in 32..127 with table[p] >= x, and 0 when there is none; it always terminates.", "quantifier": "all integers x", "why_tests_cant": "Binary search over a 96-entry table against an unbounded argument.", "anchors": ["contracts/formula/fixed_map_formula.py: _find_position_in_max_exp_array, _max_exp_array"]}
{"id": "C09", "title": "The integer binary logarithm is exact", "statement": "_floor_log2(n) equals floor(log2 n) for all 1 <= n < 2^256 and both loops terminate.", "quantifier": "all n in 1..2^256-1", "why_tests_cant": "2^256 inputs.", "anchors": ["contracts/formula/fixed_map_formula.py: _floor_log2"]}
{"id": "C10", "title": "General exponentiation never exceeds 256 bits inside the table's range", "statement": "For every precision 32..127 and every 0 <= x <= table[precision] >> (127-precision), all intermediate values of _general_exp stay below 2^256; and the table is maximal: the next x overflows.", "quantifier": "96 precisions times all x up to the tabulated maximum", "why_tests_cant": "About 2^134 inputs.", "anchors": ["contracts/formula/fixed_map_formula.py: _general_exp, _max_exp_array", "contracts/formula/auto_generate/common/functions.py: general_exp, safe_mul, safe_add"]}
{"id": "C11", "title": "The generator scripts reproduce the tables and constants of the formula", "statement": "get_coefficients and get_max_exp_array (binary search over checked 256-bit arithmetic) produce exactly the coefficients and table embedded in the formula; the search itself is correct for every monotone predicate. The scripts for the optimal logarithm and exponential and for ln 2, computing with decimals rounded to 100 digits, produce exactly the formula's constants and nothing else.", "quantifier": "the closed tables; the search for all monotone predicates", "why_tests_cant": "The search lemma ranges over all predicates; a test only replays the table.", "anchors": ["contracts/formula/auto_generate/common/functions.py: get_coefficients, get_max_exp_array, binary_search, general_exp", "contracts/formula/fixed_map_formula.py: _max_exp_array, _general_exp"]}
{"id": "C12", "title": "A larger deposit can yield fewer tokens at the switch of algorithms", "statement": "One expects quotes to grow with the amount. In fact purchase, sale and cross quotes are not monotone: there are inputs, at the switch from one exponentiation algorithm to the other, where a larger amount yields less - but never more than one unit less, for amounts that change the power less than 8,000,000-fold and holdings below 2^99 (supplies below 2^113); the exactly computed special cases (weight 100%, equal weights) are monotone.", "quantifier": "all inputs", "why_tests_cant": "Non-monotonic points sit at isolated algorithm switch-overs.", "anchors": ["contracts/formula/fixed_map_formula.py: _power (switch between _optimal_exp and _general_exp)"]}
{"id": "C13", "title": "Balances are non-negative and sum to the total supply, in every reachable state", "statement": "In every state reachable by any sequence of transactions, including re-entrant calls by arbitrary contracts, every IRC, ICX and flexible token has non-negative balances whose sum is totalSupply.", "quantifier": "all transaction histories, all adversarial contracts, all call depths", "why_tests_cant": "Re-entrancy through tokenFallback gives unboundedly many interleavings.", "anchors": ["contracts/irc_token/irc_token.py: IRCToken._transfer, on_install", "contracts/icx_token/icx_token.py: deposit, withdrawTo", "contracts/flexible_token/flexible_token.py: issue, destroy"]}
{"id": "C14", "title": "Transfer moves exactly the value and nothing else", "statement": "A successful transfer(to, v) by a holder to an ordinary account has 0 <= v <= balance, decreases the sender by v, increases the recipient by v (net zero for a self transfer), leaves every other balance, the supply and every other contract untouched and logs one Transfer event; it succeeds exactly under these conditions.", "quantifier": "all states, senders, recipients, values", "why_tests_cant": "Universal over states and amounts (self-transfer, boundary values).", "anchors": ["contracts/irc_token/irc_token.py: IRCToken.transfer, _transfer", "contracts/icx_token/icx_token.py: transfer", "contracts/flexible_token/flexible_token.py: transfer"]}
{"id": "C15", "title": "The ICX token is always fully backed", "statement": "In every reachable state and for every ICX token contract, the ICX coins it holds equal its totalSupply, so every holder can always redeem.", "quantifier": "all histories, adversarial contracts, nested withdrawals", "why_tests_cant": "Re-entrant withdraw/deposit sequences are unbounded.", "anchors": ["contracts/icx_token/icx_token.py: deposit, fallback, withdraw, withdrawTo"]}
{"id": "C16", "title": "Nobody else can spend a holder's tokens", "statement": "In a transaction not sent by an account h, h's balance in an IRC or ICX token never decreases whatever contracts are called; for a flexible token the same holds unless its owner destroys the tokens, which a converter never does to others.", "quantifier": "all states, all transactions by others, all adversarial contracts", "why_tests_cant": "Needs every call chain to be considered.", "anchors": ["contracts/irc_token/irc_token.py: _transfer", "contracts/icx_token/icx_token.py: withdrawTo", "contracts/flexible_token/flexible_token.py: destroy", "contracts/converter/converter.py: _sell"]}
{"id": "C17", "title": "Supply changes only by deposit/withdraw, issue and destroy, with exact effects", "statement": "An IRC token's supply never changes. issue and destroy change the named balance and the supply by exactly the amount, only for positive amounts and only for the owner (destroy also for the holder); deposit and withdrawTo likewise. A withdrawal to a contract lowers balance and supply before the contract's code runs.", "quantifier": "all histories; all inputs", "why_tests_cant": "Universal over histories.", "anchors": ["contracts/flexible_token/flexible_token.py: issue, destroy", "contracts/icx_token/icx_token.py: deposit, withdrawTo", "contracts/irc_token/irc_token.py"]}
{"id": "C18", "title": "Supply is accounted for by the Issuance and Destruction events", "statement": "At every transaction boundary, for each ICX or flexible token, totalSupply equals the supply at installation plus all logged Issuance amounts minus all logged Destruction amounts.", "quantifier": "all histories, adversarial contracts", "why_tests_cant": "History property; nested calls delay the Destruction event.", "anchors": ["contracts/flexible_token/flexible_token.py: issue, destroy", "contracts/icx_token/icx_token.py: deposit, withdrawTo"]}
{"id": "C19", "title": "Transfer events reconstruct balances - except withdrawals from the ICX token", "statement": "For an IRC or flexible token, the balance of each account (other than the token contract itself) is its initial supply plus the amounts received minus the amounts sent according to the Transfer events. For the ICX token this expectation fails, because withdraw/withdrawTo log no Transfer: the events overstate the balance and never understate it - except for converters, which never withdraw: their balance of any token, the ICX token too, changes exactly as the Transfer events say.", "quantifier": "all histories", "why_tests_cant": "History property.", "anchors": ["contracts/icx_token/icx_token.py: withdrawTo (emits Destruction but no Transfer)"]}
{"id": "C20", "title": "Disabled transfers are really disabled, and only the owner can disable them", "statement": "While transfers of a flexible token are disabled every transfer call fails; only the token's owner can change the switch; issue and destroy remain possible.", "quantifier": "all states, callers and inputs", "why_tests_cant": "Universal over states and callers.", "anchors": ["contracts/flexible_token/flexible_token.py: transfer, require_transfer_allowed, disableTransfer"]}
{"id": "C21", "title": "Tokens cannot be sent by transfer to contracts that do not handle them", "statement": "transfer to a contract address at which no contract lives or whose contract has no tokenFallback (tokens, registry) always fails.", "quantifier": "all states and amounts", "why_tests_cant": "Universal over states.", "anchors": ["contracts/irc_token/irc_token.py: _transfer (tokenFallback call)"]}
{"id": "C22", "title": "Ownership moves only by nomination and acceptance", "statement": "In one transaction the owner of any contract changes only if the transaction is sent by the pending owner (or owner/pending owner is itself a contract); the pending owner changes only if the owner or the pending owner acts. Third parties can do neither, whatever contracts they call. If owner and pending owner (if any) are accounts, every transaction by anyone - themselves included - either leaves both as they are, or is the owner's own direct call of transferOwnerShip, which only makes the named address pending, or the pending owner's own direct call of acceptOwnerShip, which makes it owner and leaves nobody pending.", "quantifier": "all reachable states, all transactions, all adversarial contracts", "why_tests_cant": "All call chains of all third parties.", "anchors": ["contracts/utility/owned.py: transferOwnerShip, acceptOwnerShip, require_owner_only"]}
{"id": "C23", "title": "Exact two-step hand-over", "statement": "transferOwnerShip(n) succeeds exactly for the owner and n different from the owner and only sets the pending owner; acceptOwnerShip succeeds exactly for the pending owner, makes it owner and clears the nomination to the zero address, which nobody can accept.", "quantifier": "all states and callers", "why_tests_cant": "Universal over states.", "anchors": ["contracts/utility/owned.py: transferOwnerShip, acceptOwnerShip"]}
{"id": "C24", "title": "Administrative calls fail for everybody without the role", "statement": "Every owner-only method of every contract (issue, disableTransfer, withdrawTokens, transferTokenOwnership, acceptTokenOwnership, disableTokenTransfers, withdrawFromToken, addConnector, updateConnector, disableConnectorPurchases, registerIcxToken, registerAddress, unregisterAddress) fails unless the caller is the owner; every manager-or-owner method fails unless the caller is one of the two.", "quantifier": "all states, callers, arguments", "why_tests_cant": "Universal over states and callers.", "anchors": ["contracts/utility/owned.py", "contracts/utility/managed.py", "contracts/utility/token_holder.py", "contracts/utility/flexible_token_controller.py", "contracts/flexible_token/flexible_token.py", "contracts/converter/converter.py", "contracts/network/network.py", "contracts/score_registry/score_registry.py"]}
{"id": "C25", "title": "The deployer of a converter is NOT its first manager", "statement": "One expects (Managed.on_install) the deployer to be the first manager. In fact a converter has no manager after installation, and the owner alone can appoint the first one.", "quantifier": "all installations", "why_tests_cant": "Concerns the combination of on_install methods over the inheritance order.", "anchors": ["contracts/utility/managed.py: on_install", "contracts/converter/converter.py: on_install", "contracts/utility/flexible_token_controller.py: on_install"]}
{"id": "C26", "title": "Management hand-over", "statement": "The converter's manager changes only to an address nominated by the owner or manager and only by that address's own acceptance.", "quantifier": "all states and callers", "why_tests_cant": "Universal over states and callers.", "anchors": ["contracts/utility/managed.py: transferManagement, acceptManagement"]}
{"id": "C27", "title": "Connector weights are always consistent", "statement": "In every reachable state of a converter each listed connector is set, has weight 1..1000000, no connector is listed twice, the flexible token and the converter itself are never connectors, and the total weight equals the sum of the weights and is at most 1000000.", "quantifier": "all histories", "why_tests_cant": "Invariant over all administration histories.", "anchors": ["contracts/converter/converter.py: addConnector, updateConnector, _require_valid_connector_weight"]}
{"id": "C28", "title": "The conversion fee never exceeds the maximum fixed at installation", "statement": "In every reachable state 0 <= conversionFee <= maxConversionFee <= 1000000, and maxConversionFee, the flexible token and each connector's membership never change once set.", "quantifier": "all histories", "why_tests_cant": "Invariant over histories.", "anchors": ["contracts/converter/converter.py: setConversionFee, on_install, getFinalAmount"]}
{"id": "C29", "title": "Fee arithmetic is exact and never creates value", "statement": "For every fee and non-negative amount, getFinalAmount is between 0 and the amount, is monotone, is the floor of amount*(1-fee)^magnitude, and quoted amount plus quoted fee equals the formula's result.", "quantifier": "all amounts, fees 0..1000000, magnitudes", "why_tests_cant": "Unbounded integers.", "anchors": ["contracts/converter/converter.py: getFinalAmount, get_purchase_return, get_sale_return, get_cross_connector_return"]}
{"id": "C30", "title": "Connectors can only be added while the converter is inactive", "statement": "addConnector fails while the converter owns its flexible token, and fails for a token already set, an invalid weight, the flexible token, the converter itself, the zero address or a total above 100%; otherwise it adds exactly that connector.", "quantifier": "all states and arguments", "why_tests_cant": "Universal over states.", "anchors": ["contracts/converter/converter.py: addConnector, _require_inactive"]}
{"id": "C31", "title": "While a converter is active its connector tokens leave it only through conversions", "statement": "withdrawTokens on an active converter fails for each connector token, for every caller including the owner. After any number of transactions by anyone, if an active converter holds less of a genuine connector token than before, then it logged a Conversion, or its flexible token logged a change of owner (the converter may have been inactive in between), or the connector is itself a flexible token that logged a destruction of the converter's tokens (its owner may do that).", "quantifier": "all states, callers, arguments", "why_tests_cant": "Universal over states.", "anchors": ["contracts/converter/converter.py: withdrawTokens", "contracts/utility/token_holder.py: withdrawTokens"]}
{"id": "C32", "title": "Only the registered network can trade with a converter", "statement": "A token arriving at a converter is accepted only if it comes from the address the registry lists as Network (and is then converted) or if it is a connector token sent by the owner while the converter is inactive; all other transfers to a converter fail, so nothing is stranded.", "quantifier": "all states, senders, tokens, data", "why_tests_cant": "Universal over states and data.", "anchors": ["contracts/converter/converter.py: tokenFallback"]}
{"id": "C33", "title": "The manager can NOT fund an inactive converter", "statement": "One expects (tokenFallback's condition) a connector token sent by the manager to an inactive converter to be accepted. In fact the condition compares with the method object self.getManager, so such a transfer by a manager who is not the owner always fails.", "quantifier": "all states", "why_tests_cant": "Concerns one sub-expression evaluated on all managers.", "anchors": ["contracts/converter/converter.py: tokenFallback (self.getManager compared without a call)"]}
{"id": "C34", "title": "A conversion pays at least minReturn or has no effect", "statement": "Whenever a conversion at a converter succeeds the amount paid out is at least the requested minReturn, which must be positive; the payout is exactly the quoted final amount.", "quantifier": "all states, tokens, amounts, minReturn", "why_tests_cant": "Universal over states.", "anchors": ["contracts/converter/converter.py: _convert, _buy, _sell, _convert_cross_connector"]}
{"id": "C35", "title": "Emergency switches stop trading", "statement": "While conversions are disabled every conversion fails; while purchases with a connector are disabled every purchase of the flexible token with it fails; selling for that connector is unaffected by the switch.", "quantifier": "all states and trades", "why_tests_cant": "Universal over states.", "anchors": ["contracts/converter/converter.py: _require_conversions_allowed, disableConversions, disableConnectorPurchases"]}
{"id": "C36", "title": "Disabling purchases with a connector does NOT stop exchanging it for another connector", "statement": "One expects that tokens of a connector with disabled purchases cannot be exchanged for another connector. In fact a cross conversion checks the switch of the token bought, not of the token sold: switching purchases of the token sold changes nothing, and the trade still succeeds.", "quantifier": "all states and trades", "why_tests_cant": "Concerns which of two connectors is checked in the cross conversion.", "anchors": ["contracts/converter/converter.py: get_cross_connector_return (checks to_connector)"]}
{"id": "C37", "title": "Exact accounting of a purchase, a sale and a cross conversion", "statement": "A successful purchase mints exactly the returned amount to the trader and changes nothing else but the connector's virtual balance (+amount if enabled); a sale burns exactly the sold amount from the converter and pays exactly the returned amount, lowering the virtual balance by it; a cross conversion pays the target token and adjusts both virtual balances.", "quantifier": "all states and amounts with ordinary tokens", "why_tests_cant": "Universal over states.", "anchors": ["contracts/converter/converter.py: _buy, _sell, _convert_cross_connector"]}
{"id": "C38", "title": "A conversion cannot deplete a connector unless the supply is depleted too", "statement": "A sale pays the whole connector balance only if the whole supply is sold; a cross conversion never pays the whole balance.", "quantifier": "all states and amounts", "why_tests_cant": "Universal over states.", "anchors": ["contracts/converter/converter.py: _sell, _convert_cross_connector"]}
{"id": "C39", "title": "The executed amount equals the quote (connectors without virtual balance)", "statement": "A conversion through a converter whose connectors use real balances yields exactly the amount getReturn quoted in the state before the tokens were sent.", "quantifier": "all states, tokens, amounts", "why_tests_cant": "Universal over states.", "anchors": ["contracts/converter/converter.py: getReturn, get_purchase_return, _buy, _sell, _convert_cross_connector"]}
{"id": "C40", "title": "With virtual balances the executed amount differs from the quote in a known way", "statement": "One expects a conversion to yield the quoted amount. If the token sold has a virtual balance the executed amount is the formula applied to a balance lowered by the amount sold (the code subtracts it although it was not yet added), so it exceeds the quote in general, is never more than one unit below it (for trades within the formula's range), and amounts not below the virtual balance are always refused.", "quantifier": "all states, tokens, amounts", "why_tests_cant": "Universal over states.", "anchors": ["contracts/converter/converter.py: get_purchase_return (subtracts amount although the virtual balance was not yet increased), get_cross_connector_return"]}
{"id": "C41", "title": "Registry update and restore", "statement": "updateRegistry succeeds exactly if updates are allowed or the caller is the owner and the current registry points to another non-zero registry; it then remembers the old registry; restoreRegistry (owner or manager) switches back and blocks further updates by outsiders.", "quantifier": "all states and callers", "why_tests_cant": "Universal over states.", "anchors": ["contracts/converter/converter.py: updateRegistry, restoreRegistry, disableRegistryUpdate"]}
{"id": "C42", "title": "After a restore the manager, too, can allow registry updates again", "statement": "restoreRegistry is documented to leave re-enabling of registry updates to the owner. In fact exactly the owner and the manager can re-enable them.", "quantifier": "all states and callers", "why_tests_cant": "Concerns who may call another method afterwards.", "anchors": ["contracts/converter/converter.py: restoreRegistry, disableRegistryUpdate"]}
{"id": "C43", "title": "Path validation", "statement": "A path is accepted exactly if it has odd length between 3 and 21 and its flexible tokens (odd positions) are pairwise distinct.", "quantifier": "all lists of addresses", "why_tests_cant": "All lists.", "anchors": ["contracts/network/network.py: _require_valid_path"]}
{"id": "C44", "title": "Path text codec", "statement": "Joining the textual addresses with commas, with any amount of white space around them, and parsing the path gives the same addresses; a path containing anything that is not an address is rejected.", "quantifier": "all lists of addresses and all paddings", "why_tests_cant": "Unbounded strings.", "anchors": ["contracts/network/network.py: _convert_path"]}
{"id": "C45", "title": "Conversion request decoding", "statement": "A token transfer to the network is accepted only if its data is the conversion-result marker or a dictionary with a parsable path starting with the calling token and an integer minReturn > 0; 'for' defaults to the sender; everything else fails.", "quantifier": "all data payloads", "why_tests_cant": "Unbounded payloads.", "anchors": ["contracts/network/network.py: tokenFallback, _convert_bytes_data"]}
{"id": "C46", "title": "The network never loses tokens or coins", "statement": "In a transaction whose sender neither owns nor is nominated to own the network, the network's balance in every IRC, ICX and flexible token with a benign owner never decreases, and its ICX balance is unchanged, whatever path, contracts and re-entrant calls are involved.", "quantifier": "all reachable states, all transactions, all adversarial contracts", "why_tests_cant": "Unbounded re-entrancy.", "anchors": ["contracts/network/network.py: _convert_by_path, _convert_for_internal, convertFor, tokenFallback"]}
{"id": "C47", "title": "End-to-end: the recipient gets at least minReturn or the transaction fails", "statement": "If a conversion request through the network succeeds and the contracts on the path are genuine, the recipient's balance of the final token (or coins, if it is a registered ICX token) grows by an amount of at least minReturn. If the recipient is a contract, the network's last call hands it that amount, and until that call only the sender, the network and the converters on the path are touched.", "quantifier": "all states, paths and amounts", "why_tests_cant": "Multi-contract, all path lengths.", "anchors": ["contracts/network/network.py: _convert_by_path, _convert_for_internal", "contracts/converter/converter.py: _convert"]}
{"id": "C48", "title": "The network itself does NOT enforce minReturn", "statement": "One expects the recipient to receive at least minReturn whatever contracts the path names. In fact the network only forwards minReturn to the converter: whatever the state, a request through a flexible token that is owned by a user instead of a converter succeeds for every positive minReturn, gives that owner the tokens sent and delivers nothing.", "quantifier": "all paths, including hostile converters", "why_tests_cant": "Needs a hostile contract.", "anchors": ["contracts/network/network.py: _convert_by_path (minReturn is only forwarded to the converter)"]}
{"id": "C49", "title": "End-to-end quote equals execution", "statement": "If every contract on the path is genuine and uses real balances, converting v along the path delivers exactly getExpectedReturnByPath(path, v) of the state before the transaction to the recipient, and leaves no residue in the network.", "quantifier": "all states, all path lengths 1..10 hops, all amounts", "why_tests_cant": "Multi-contract, all path lengths.", "anchors": ["contracts/network/network.py: getExpectedReturnByPath, tokenFallback, convertFor, _convert_by_path"]}
{"id": "C50", "title": "Queries do not change state", "statement": "A successful call of any read-only method leaves every balance, contract and log entry unchanged, even if it calls arbitrary other contracts.", "quantifier": "all states, methods, adversarial contracts", "why_tests_cant": "All call chains.", "anchors": ["all @external(readonly=True) methods"]}
{"id": "C51", "title": "ICX conversions only start from a registered ICX token", "statement": "convert and convertFor fail unless the first path element is registered as ICX token by the network owner, minReturn is positive and the recipient is neither the zero address nor the network.", "quantifier": "all states and arguments", "why_tests_cant": "Universal over states.", "anchors": ["contracts/network/network.py: convert, convertFor, registerIcxToken"]}
{"id": "C52", "title": "Tokens sent to the network with the result marker stay there", "statement": "One expects every token sent to the network to be converted or rejected. In fact tokens sent by anybody with the data b'conversionResult' are accepted and stay in the network; all other accepted transfers are conversion requests, and those along genuine contracts leave nothing in the network.", "quantifier": "all states and payloads", "why_tests_cant": "Needs the special marker payload.", "anchors": ["contracts/network/network.py: tokenFallback (b'conversionResult' accepted from anybody)"]}
{"id": "C53", "title": "Score registry maps names to contract addresses", "statement": "In every reachable state only the names ScoreRegistry and Network can be registered and only non-zero contract addresses; getAddress returns the last registered address or the zero address after unregistering; a fresh registry lists itself.", "quantifier": "all histories", "why_tests_cant": "Invariant over histories.", "anchors": ["contracts/score_registry/score_registry.py: registerAddress, unregisterAddress, getAddress, on_install"]}
{"id": "C54", "title": "Contracts keep their identity", "statement": "No transaction changes the kind of an installed contract, removes it, or changes a token's name, symbol and decimals or a converter's flexible token.", "quantifier": "all histories, adversarial contracts", "why_tests_cant": "Invariant over histories.", "anchors": ["contracts/irc_token/irc_token.py", "contracts/icx_token/icx_token.py", "contracts/flexible_token/flexible_token.py", "contracts/converter/converter.py", "contracts/network/network.py", "contracts/score_registry/score_registry.py"]}
{"id": "C55", "title": "Failed transactions have no effect", "statement": "A transaction that reverts anywhere in its call tree leaves no trace: no nested update of any contract survives, and an error inside a genuine contract is never swallowed.", "quantifier": "all transactions", "why_tests_cant": "Every crash point of every call tree.", "anchors": ["contracts/utility/utils.py: require, safe_sub", "contracts/converter/converter.py: tokenFallback (try/except)", "contracts/network/network.py: _convert_bytes_data (try/except)"]}
{"id": "C56", "title": "Storage wrapper reads back the last write", "statement": "Fields are declared once, under public names other than db. Then for any sequence of assignments to public attribute names no assignment fails, reading a declared VarDB field returns the last value assigned to it (or what the database held before, or the type's default), whatever is assigned to other names; a new Storage object over the same database reads the same; array and dictionary fields cannot be replaced by assignment.", "quantifier": "all field lists and write sequences", "why_tests_cant": "Unbounded write sequences.", "anchors": ["contracts/utility/storage.py: Storage.add_fields, __setattr__, __getattribute__"]}
{"id": "C57", "title": "Proxy classes are created once and expose exactly the abstract methods", "statement": "ProxyScore returns the same interface class for the same abstract class on every call and the class has exactly one interface function per abstract method of the given class, including inherited ones.", "quantifier": "all sequences of requests", "why_tests_cant": "Unbounded request sequences.", "anchors": ["contracts/utility/proxy_score.py: ProxyScore.__new__, _create_proxy_class, _get_interface_function"]}
{"id": "C58", "title": "Package builder copies each contract with its declared dependencies", "statement": "For every directory tree and contract list, each built package contains exactly the contract's own files (under name/name), except those directly in a directory called tests and those on a path mentioning __pycache__ (files in sub-directories of tests ARE packaged), its package.json at the package root, its declared dependencies and, if declared last, the NOTICE - provided the source root's text does not occur again inside the paths. Writing to disk leaves exactly these files with the sources' contents in the package directories and nothing else on disk changed; the zip archive extracts to the same files.", "quantifier": "all directory trees", "why_tests_cant": "Unbounded directory trees.", "anchors": ["contract_generator/builder.py: Builder", "contract_generator/config.py", "contract_generator/writer.py: FileWriter.write"]}
{"id": "C59", "title": "Outsiders cannot change any setting", "statement": "In a transaction whose sender is neither owner, nominated owner, manager nor nominated manager of a contract (nor able to act through another contract that is), no setting of that contract changes: owner, manager, nominations, transfer switch, connectors and their weights, virtual-balance flags and purchase switches, fee, conversion switch, ICX-token registrations and registry entries.", "quantifier": "all states, transactions, adversarial contracts", "why_tests_cant": "Needs every call chain to be considered.", "anchors": ["contracts/utility/owned.py", "contracts/utility/managed.py", "contracts/utility/token_holder.py", "contracts/utility/flexible_token_controller.py", "contracts/flexible_token/flexible_token.py", "contracts/converter/converter.py", "contracts/network/network.py", "contracts/score_registry/score_registry.py"]}
{"id": "C60", "title": "Settings can be read off the event log", "statement": "The owner of a contract is the new owner in its latest OwnerUpdate event (the previous owner if there is none); a converter's manager, fee and conversion switch are those of its latest ManagerUpdate, ConversionFeeUpdate and ConversionsEnable events (none, 0 and enabled if there are none).", "quantifier": "all histories, adversarial contracts", "why_tests_cant": "Relates the state to the whole history.", "anchors": ["contracts/utility/owned.py: OwnerUpdate", "contracts/utility/managed.py: ManagerUpdate", "contracts/converter/converter.py: ConversionFeeUpdate, ConversionsEnable"]}
{"id": "C61", "title": "No sequence of trades drains a converter (conversion formula)", "statement": "However many purchases, sales and cross conversions are made, in any order and mixed with gifts to the reserves and destructions of the flexible token, each paying at most what the formula returns for the balances of the moment: the weighted geometric mean of the reserves never falls against the supply of the flexible token except for the stated rounding; no reserve shrinks unless flexible tokens were given up or another reserve grew; no flexible tokens come out unless some reserve grew.", "quantifier": "all numbers of connectors, weights, reserves, supplies and sequences of trades", "why_tests_cant": "Unbounded sequences of trades over unbounded integers; each single trade may look harmless.", "anchors": ["contracts/formula/fixed_map_formula.py: calculate_purchase_return, calculate_sale_return, calculate_cross_connector_return"]}
{"id": "C62", "title": "No history of transactions by strangers drains a converter", "statement": "Take an active converter whose registry, flexible token and connector tokens are genuine contracts, without virtual balances; the registered network may be anything. After any number of transactions, sent by anybody who is neither (nominated) owner nor manager of the converter, of its flexible token or of a flexible token among its connectors (nor able to act through a contract that is) - nor owner of the registry, unless registry updates are switched off -, with the help of any malicious contracts: settings are unchanged, supply and reserves have changed only by conversions at the formula's price (one for each Conversion event) and by gifts; no reserve has shrunk unless flexible tokens were given up or another reserve has grown, and no flexible tokens have come out unless a reserve has grown - except for rounding that would take about 10^24 conversions to gain one unit. If the network is genuine and the registry's owner is no such stranger, the network stays genuine.", "quantifier": "all states, histories of outsiders' transactions, adversarial contracts, re-entrancy, amounts", "why_tests_cant": "Unbounded histories with arbitrary contracts calling back in the middle of a conversion.", "anchors": ["contracts/converter/converter.py: _convert, _buy, _sell, _convert_cross_connector", "contracts/network/network.py", "contracts/flexible_token/flexible_token.py", "contracts/utility/token_holder.py", "contracts/score_registry/score_registry.py", "contracts/formula/fixed_map_formula.py"]}
{"id": "C63", "title": "Quotes are accurate - except for deposits of millions of times the connector balance", "statement": "Every purchase, sale and cross quote is at least the documented real formula, minus one unit and a relative error of 2^-114 (purchase) or 2^-100 (sale, cross) in the power, while the power is below 8,000,000; above, it is computed as at least 8,000,000 (which for sales and cross conversions costs the trader at most an 8,000,000th of the balance). The exponentiation itself has the same accuracy. A power e^y with y >= 16 is computed as the Taylor polynomial of e^y of degree 33 (from below within 2^-30 for y <= 56, else within a factor of three; never more than it), so a buyer who deposits a huge multiple of the connector balance can get less than a 20,000th of the documented return.", "quantifier": "all supplies, balances, weights and amounts for which the quote succeeds", "why_tests_cant": "Real-number error bounds over unbounded inputs; tests compare a few values with a tolerance.", "anchors": ["contracts/formula/fixed_map_formula.py: _power, _general_log, _optimal_log, _general_exp, _optimal_exp, calculate_purchase_return, calculate_sale_return, calculate_cross_connector_return"]}
{"id": "C64", "title": "Exactly which conversions succeed", "statement": "On genuine contracts a conversion request (with tokens, or with coins through convert/convertFor) succeeds exactly when: the path is well-formed, the minimum return positive, the sender has the (positive) amount, and at every step, with the amount received from the step before: the token may be transferred, the converter is registered with this network, enabled and active and trades the pair, the formula succeeds, and the result is at least 1 (minReturn at the last step) and can be paid out; and the final token can be paid to a user. No other condition - no other account's state or earlier history - can make it fail, given enough call depth. A request that succeeds also succeeds for any other beneficiary and any lower minimum.", "quantifier": "all reachable states, networks, paths, amounts, minimum returns, senders and beneficiaries (externally owned)", "why_tests_cant": "Liveness for every state and path; a test observes single successes and single rejections.", "anchors": ["contracts/network/network.py: tokenFallback, convert, convertFor, _convert_for_internal, _convert_by_path", "contracts/converter/converter.py: tokenFallback, _convert, _buy, _sell, _convert_cross_connector"]}
{"id": "C65", "title": "Requests in transfer data are read as written, and nothing else is a request", "statement": "The bytes sent with a token transfer are a conversion request exactly if they are the UTF-8 form of a JSON object - with any white space, order of keys, further keys and escapes; the last of repeated keys counts - with a 'path' text as documented, an integer 'minReturn' and no, a null or an address 'for'. The network reads exactly that path, minimum and beneficiary, and refuses tokens that come with anything else than a request for a path starting with the token sent, or the word conversionResult. JSON that the contracts write is read back unchanged; the bytes the network sends to a converter ask for exactly the token and the minimum it means.", "quantifier": "all byte strings, texts, JSON values, addresses and integers", "why_tests_cant": "Infinitely many texts for each value; tests use a handful of hand-written payloads.", "anchors": ["contracts/network/network.py: _convert_bytes_data, tokenFallback, _convert_by_path", "contracts/converter/converter.py: tokenFallback"]}
{"id": "C66", "title": "Virtual balances let an outsider drain a converter by a round trip", "statement": "One expects (C62) that an outsider cannot take value out of a converter by buying and selling back. With a virtual balance B of the token paid he can: the purchase is executed at a balance lowered by the amount a paid, the sale at the true one. Without fees a purchase for a and the sale of what was bought gains a^2/B - for every weight and supply, exactly in real arithmetic, and up to one unit and 4B(2^-94 + 10^6/(weight*supply)) in the contract (if B <= 8000000(B-a)) -, everything else being as before. In a reachable state with a fee of 0.3% an outsider takes away 99% of the virtual balance with two transactions.", "quantifier": "all states with genuine contracts and a virtual balance, all amounts, weights and supplies", "why_tests_cant": "The gain is a property of a pair of calls for all real weights; tests check single conversions against recorded amounts.", "anchors": ["contracts/converter/converter.py: get_purchase_return, _buy, _sell, getConnectorBalance", "contracts/formula/fixed_map_formula.py: calculate_purchase_return, calculate_sale_return"]}
{"id": "C67", "title": "Splitting an order in two gains or costs at most rounding", "statement": "Two purchases one after the other - the second one at the supply and balance the first one leaves - together issue at most one unit more than a single purchase for the sum, and at least the single purchase's amount less the power (1 + d2/(balance+d1))^(weight/10^6) and two units (documented power at most 8000000, supply after it below 2^112). Two sales, or two exchanges of a connector for another, pay between two units less and one unit more than the single one (balance below 2^96, documented power at least 1/8000000). So there is no advantage in splitting an order to beat the formula.", "quantifier": "all supplies, balances, weights and all splittings of an amount for which the three calls succeed", "why_tests_cant": "A statement about three calls whose inputs depend on one another, for all amounts; tests compare single calls with recorded outputs.", "anchors": ["contracts/formula/fixed_map_formula.py: calculate_purchase_return, calculate_sale_return, calculate_cross_connector_return, power"]}
{"id": "C68", "title": "Without fees a round trip costs no more than rounding", "statement": "C05 and C06 say that buying and selling back never gains. It also costs next to nothing: selling what was bought for a deposit d returns at least d - 2 - 2*balance*(10^6/weight)/(supply+bought), that is two units and twice the price of one smallest unit of the flexible token (deposit at most 3999999 times the balance, balance below 2^91, weight*(supply+bought) at least 4000000). Exchanging a connector for another and back returns at least the amount less one unit, the price of four smallest units of the other connector, and balance/2^77.", "quantifier": "all supplies, balances, weights and amounts in the stated range for which both calls succeed", "why_tests_cant": "The loss is an infimum over all real weights and amounts; tests check literal amounts with tolerances.", "anchors": ["contracts/formula/fixed_map_formula.py: calculate_purchase_return, calculate_sale_return, calculate_cross_connector_return, power"]}
{"id": "C69", "title": "Bystanders cannot stop trading or lock holders in", "statement": "Take a path through genuine contracts that is open for trading: tokens transferable, converters active, enabled, registered with the network and without virtual balances. After any number of transactions by anybody who is neither (nominated) owner nor manager of these contracts (nor able to act through a contract that is), with the help of any malicious contracts, a conversion along the path, with tokens or with coins, still succeeds exactly when the sender has the positive amount he sends and the formula, at the present supply and balances and less the fees, gives at every step at least 1 and at the last step at least the positive minimum asked for. In particular a holder of flexible tokens can at any time sell any part of his holding for any connector token at the formula's price, with any positive minimum up to that price (total supply below 2^129): bystanders can move the price, never block the exit, change the fee or drain the connector he is paid in.", "quantifier": "all states, paths, histories of bystanders' transactions with adversarial contracts, amounts, minimum returns, senders and beneficiaries (externally owned)", "why_tests_cant": "Liveness after an arbitrary history; a test can only try particular ways of getting in the way.", "anchors": ["contracts/network/network.py: tokenFallback, convert, convertFor, _convert_by_path", "contracts/converter/converter.py: tokenFallback, _convert, disableConversions, updateConnector, addConnector", "contracts/flexible_token/flexible_token.py: disableTransfer", "contracts/utility/owned.py", "contracts/utility/managed.py", "contracts/score_registry/score_registry.py"]}
{"id": "C70", "title": "Every built package is complete", "statement": "Whichever configured contracts are built, from wherever: every module loaded when a package is loaded - its main module, what that imports, what those import, and the packages they are in - is in the package where the import looks for it, and is the repository's module of that name; so is the package.json.", "quantifier": "all lists of configured contracts, source roots, directory trees holding the repository's modules, chains of imports", "why_tests_cant": "a test of a package needs the platform and exercises one build; a missing dependency shows only when the module that needs it is loaded", "anchors": ["contract_generator/config.py:config", "contract_generator/builder.py:Builder", "contracts/**: import statements"]}
{"id": "C71", "title": "An interrupted build damages nothing else and is repaired by building again", "statement": "Wherever a build to the file system is stopped - by an error, a kill or a crash, between or in the middle of files - files outside the package directories are untouched, the package directories hold only files that were there before or belong to the package, and building again gives exactly the disk that the uninterrupted build would have given.", "quantifier": "all disks, package lists and crash points", "why_tests_cant": "crash points between and inside file operations cannot be enumerated by tests", "anchors": ["contract_generator/writer.py:FileWriter.write", "contract_generator/builder.py:Builder.build"]}
{"id": "C72", "title": "The build tool: unknown names change nothing, clean removes only build - but it works only in its own directory", "statement": "build.py with any unknown contract name changes nothing on disk, even for the known names beside it; clean removes exactly the build directory and says whether there was one, whatever follows it; otherwise exactly the named contracts (all if none is named) are built into build beside the script. One expects this from every current directory, since paths are computed from the script's place; in fact the NOTICE is taken from the current directory, so where there is none every build of anything but irc_token fails.", "quantifier": "all argument lists, disks and directories", "why_tests_cant": "the argument lists, disks and current directories are unbounded", "anchors": ["build.py:main", "build.py:write_contracts_to_file_system", "build.py:clean_build_dir", "contract_generator/builder.py:Builder._append_notice_on_path_list", "contract_generator/writer.py:FileWriter.clean"]}
{"id": "C73", "title": "Settings change only by a direct administrative call", "statement": "No transaction changes the settings of a token, converter, network or registry (owner, nominated owner, manager, nominated manager, transferability, connectors, weights, fee, enabling flags, registered ICX tokens, registered addresses, and the registry itself once registry updates are disabled) unless the transaction itself is a direct call, without coins, of an administrative method on that contract (or on the converter that owns it as its smart token, or on one that owns that converter in turn) by the account entitled to that method. In particular an owner or manager who calls an unknown contract, however that contract is written, changes nothing; this holds as long as the role holders are accounts, genuine contracts or converters in the same position. If all roles of a contract are held by accounts, only direct calls to the contract itself can change its settings.", "quantifier": "every reachable state, every transaction by anyone including the owner, every behaviour of unknown contracts called on the way, every depth of calls", "why_tests_cant": "the unknown contracts a role holder may call are arbitrary programs; tests can try only some of them", "anchors": ["contracts/utility/owned.py", "contracts/utility/managed.py", "contracts/utility/token_holder.py", "contracts/utility/flexible_token_controller.py", "contracts/flexible_token/flexible_token.py", "contracts/converter/converter.py", "contracts/network/network.py", "contracts/score_registry/score_registry.py"]}
{"id": "C74", "title": "An account's tokens leave it only by its own direct call", "statement": "A transaction lowers an account's balance of an IRC or ICX token only if it is that account's own direct call, without coins, of transfer, withdraw or withdrawTo on that very token, and then by at most the amount named in the call, whatever contracts are called in consequence. For a flexible token whose owner is an account, a genuine contract or a converter in such hands: only by the account's own direct transfer or destroy, or by a direct destroy of its tokens by the account that owns the token, again by at most the amount named. Calling any other contract can never cost an account its tokens.", "quantifier": "every reachable state, every transaction by anyone including the holder, every behaviour of unknown contracts, every depth of calls and callbacks", "why_tests_cant": "receiving contracts and callees are arbitrary programs that may call back into every contract", "anchors": ["contracts/irc_token/irc_token.py: transfer, _transfer", "contracts/icx_token/icx_token.py: transfer, withdraw, withdrawTo", "contracts/flexible_token/flexible_token.py: transfer, destroy", "contracts/converter/converter.py: tokenFallback", "contracts/network/network.py: convert, convertFor, tokenFallback"]}
{"id": "C75", "title": "An account's coins leave it only as the amount attached", "statement": "A transaction lowers an account's coins by at most the amount that account itself attached to it; transactions of other accounts never lower them, nor does a deployment, whatever the called contracts do.", "quantifier": "every state, every transaction, every behaviour of unknown contracts", "why_tests_cant": "callees are arbitrary programs", "anchors": ["contracts/icx_token/icx_token.py: deposit, withdrawTo", "contracts/network/network.py: convert, convertFor"]}
{"id": "C76", "title": "Every quotation of the formula source ends, and with the quoted function's value", "statement": "For all integers whatsoever, the methods calculate_purchase_return, calculate_sale_return and calculate_cross_connector_return of the class FixedMapFormula, executed statement by statement from the syntax tree of their source text (loops, tables, boundaries and all), end - with an integer or an exception, never in an endless loop - and the integer (or the exception) is the one of the functions all other properties speak about.", "quantifier": "all five integer arguments, positive or not", "why_tests_cant": "tests run the methods on chosen arguments; that no argument makes a loop endless or takes an untested branch, and that the functions reasoned about are the ones in the file, is a statement about all arguments and the text itself", "anchors": ["contracts/formula/fixed_map_formula.py: FixedMapFormula", "contracts/utility/utils.py: require"]}
{"id": "C77", "title": "The contract files themselves behave as all the other properties assume", "statement": "When the six contracts are executed statement by statement from the syntax trees of their files - inheritance and super(), module globals, decorators (external, readonly, payable, eventlog, staticmethod), default arguments, database variables, interface calls, try/except, comprehensions and loops included - every message call and every transaction, deployment included, gives in every state exactly the answer, the storages, the ICX balances and the event log that the reference semantics of the other contract properties gives, or fails exactly when it fails; no call ever reaches a statement without a defined meaning; and the states reachable by histories of transactions are the same.", "quantifier": "all transactions and message calls, all states of the world whatsoever, all behaviours of unknown contracts (re-entrant ones included), all call depths, all finite histories", "why_tests_cant": "tests compare a few calls of mocked contracts; that no argument, state or answer of a foreign contract takes the text of a contract away from the reasoned-about semantics is a statement about all runs of the program text", "anchors": ["contracts/irc_token/irc_token.py: IRCToken", "contracts/icx_token/icx_token.py: IcxToken", "contracts/flexible_token/flexible_token.py: FlexibleToken", "contracts/converter/converter.py: Converter", "contracts/network/network.py: Network", "contracts/score_registry/score_registry.py: ScoreRegistry", "contracts/utility: Owned, Managed, TokenHolder, FlexibleTokenController, utils"]}
{"id": "C78", "title": "Updating a contract to its own code changes nothing", "statement": "When the service updates any of the six contracts to the same code, on_update succeeds and leaves everything as it was: every balance, supply, owner, manager, setting, connector, registered address and coin; it logs nothing and calls no other contract, so neither an owner nor a token balance can be lost or reset by an upgrade.", "quantifier": "all contracts of the six kinds, all states of the world whatsoever, every account that asks for the update", "why_tests_cant": "a test updates one contract in one state; that no state makes on_update fail or write quantifies over all of them", "anchors": ["contracts/utility/owned.py: on_update", "contracts/utility/managed.py: on_update", "contracts/utility/token_holder.py: on_update", "contracts/utility/flexible_token_controller.py: on_update", "contracts/irc_token/irc_token.py: on_update", "contracts/icx_token/icx_token.py: on_update", "contracts/flexible_token/flexible_token.py: on_update", "contracts/score_registry/score_registry.py: on_update", "contracts/converter/converter.py: on_update", "contracts/network/network.py: on_update"]}
{"id": "C79", "title": "Message calls among the contracts never nest deeper than six", "statement": "As long as no unknown contract is deployed, no transaction and no deployment of any of the six kinds of contracts ever needs more than six nested message calls, whatever the state, the amounts, the length of the path and the data: every call-depth limit of six or more gives the same success or failure, the same returned value and the same state, in every history. So nobody can make a transaction fail by the service's limit on nested calls, and a longer path does not nest deeper. Six are needed (a conversion by a token transfer); with unknown contracts there is no bound.", "quantifier": "all states without unknown contracts, all transactions and deployments, all limits of six or more, all histories from genesis of any length", "why_tests_cant": "the depth of a call chain depends on the data, the registry and the wiring of tokens, converters and networks, which may be cyclic; a test follows one chain", "anchors": ["contracts/irc_token/irc_token.py: _transfer", "contracts/network/network.py: tokenFallback, convertFor, _convert_by_path, getExpectedReturnByPath", "contracts/converter/converter.py: tokenFallback, _convert, _buy, _sell, _convert_cross_connector, getReturn", "contracts/utility/flexible_token_controller.py: withdrawFromToken", "contracts/utility/token_holder.py: withdrawTokens", "contracts/icx_token/icx_token.py: withdrawTo"]}
{"id": "C80", "title": "The owner of a registry can drain the converters that follow it", "statement": "One expects (and C62 proves, as long as the registry's owner is honest) that a stranger to a converter, its flexible token and its connectors can only trade with it at the formula's price. In fact, whoever owns the registry of a converter that allows registry updates (the default) can, although the converter is active and everything around it is genuine, exchange the registry for a contract of his own and take 99% of a reserve with six transactions, giving up nothing: the converter asks the registry for the Network after the tokens of a conversion have arrived and before it computes the price, and the registry can trade in between. Switching registry updates off stops the same attempt; C62 then covers the owner of the registry like any other stranger.", "quantifier": "existence: a reachable state with a genuine set-up and a history of transactions of the registry's owner alone, checked by computation in the model", "why_tests_cant": "a test suite with mocked or honest registries never re-enters the converter from getAddress", "anchors": ["contracts/converter/converter.py: tokenFallback, updateRegistry, get_purchase_return", "contracts/score_registry/score_registry.py: registerAddress, getAddress"]}
{"id": "C81", "title": "minReturn is enforced by the last converter alone", "statement": "C48 shows that the network does not check the minimum return. What protects the beneficiary is the last hop: if the network is genuine and the last three entries of the path are a token, a flexible token and a token of one active converter with genuine tokens and registry whose owners and managers are out of the sender's hands, then every successful conversion gives the beneficiary at least the demanded minimum in the last token (or in coins, if that is an ICX token), although all other tokens and converters on the path, and every other contract called on the way, may be malicious. This holds for token and coin conversions. The token before the last converter must be one of its tokens: otherwise a successful conversion can deliver nothing.", "quantifier": "all reachable states with such a converter, all paths ending there with arbitrary earlier hops, all amounts, minima and beneficiaries that are user accounts, all behaviours of unknown contracts", "why_tests_cant": "a test suite uses honest converters on the whole path; the claim quantifies over the code of everything before the last hop", "anchors": ["contracts/network/network.py: _convert_by_path, _convert_for_internal, tokenFallback, convert, convertFor", "contracts/converter/converter.py: tokenFallback, _buy, _sell, _convert_cross_connector"]}
{"id": "C82", "title": "Connector balances can be read off the price log - except across what the owner does", "statement": "What getConnectorBalance answers for a connector is the balance in the converter's latest PriceDataUpdate event for that connector, or unchanged if there is no such event. For a connector with a virtual balance: no transaction by anybody, whatever unknown contracts are called or re-enter on the way, leaves the two apart; the one exception is the owner's updateConnector, which sets any virtual balance and logs nothing, so that the log is then wrong until the next conversion. For a connector without, whose token is a genuine IRC2 or ICX token (the converter's own token, registry, network and other connectors may be unknown code): no transaction not sent by the converter's owner, who can fund the converter while it is inactive, and withdraw, leaves the log and the converter's actual balance of the token apart.", "quantifier": "all reachable states, converters whose owner and nominated owner are accounts; connectors with a virtual balance and all transactions and histories without a direct updateConnector of this connector; connectors without one whose token is an IRC2 or ICX token contract and all transactions and histories without a transaction sent by the owner; all behaviours of unknown contracts (also as the converter's own token, registry and network)", "why_tests_cant": "re-entrant conversions between the update of the balance and the event can only be enumerated by quantifying over the code of unknown contracts", "anchors": ["contracts/converter/converter.py: _buy, _sell, _convert_cross_connector, getConnectorBalance, updateConnector, PriceDataUpdate"]}
{"id": "C83", "title": "Flexible tokens are issued only in announced conversions", "statement": "While a converter in the hands of accounts owns its flexible token (and no contract is nominated for the token), no transaction by anybody - the converter's owner and manager included, whatever unknown contracts are called or re-enter on the way, whatever the registry and the network are - issues a token other than in a conversion: the token's Issuance events and the converter's Conversion events into the token name the same amounts in the same order. So the supply is what it was, plus the amounts bought, minus the amounts destroyed. Only a direct call that hands over the ownership of converter or token can end this state.", "quantifier": "all reachable states in which the converter owns its flexible token and the roles are held by accounts, all transactions and histories, all behaviours of unknown contracts (as connector tokens, registry and network)", "why_tests_cant": "a hidden path to issue (re-entry, a forwarded call, a role reached through another contract) is excluded only by considering every caller, every message and every nesting", "anchors": ["contracts/flexible_token/flexible_token.py: issue", "contracts/converter/converter.py: _buy, tokenFallback", "contracts/utility/flexible_token_controller.py: transferTokenOwnership", "contracts/utility/owned.py: acceptOwnerShip"]}
{"id": "C84", "title": "A converter pays out genuine tokens only in conversions it announces - unless its owner acts", "statement": "As long as the roles of a converter are held by accounts and its owner sends no transaction, what the converter pays out in a genuine IRC2 or ICX token (the Transfer events of that token) is in total exactly what its Conversion events into the token say it returned: whoever transacts, whatever unknown contracts are called or re-enter during a payment, and whatever the registry, the network, the converter's own token and the other connectors are. So in either sort of token the converter's balance is what it was, plus what it received, minus the amounts returned that it announced. The owner can withdraw from an inactive converter without any announcement.", "quantifier": "all reachable states, converters whose owner and nominated owner are accounts, IRC2 and ICX tokens other than the converter's own token, all transactions and histories without a transaction sent by the owner, all behaviours of unknown contracts", "why_tests_cant": "the recipient of a payment may be unknown code that starts further conversions before the payment is logged, to any depth", "anchors": ["contracts/converter/converter.py: _sell, _convert_cross_connector, withdrawTokens, Conversion", "contracts/irc_token/irc_token.py: transfer, _transfer", "contracts/icx_token/icx_token.py: transfer"]}
