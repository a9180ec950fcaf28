# Formal model of icon-dex in Rocq (Coq 8.16.1)

## 1. What is modelled, and where

| Code in /repo | Coq file (rocq/theories) |
|---|---|
| `contracts/formula/fixed_map_formula.py` (all of it, with every constant, generated from the source text by `tools/gen_consts.py`) | `FormulaConsts.v`, `FormulaModel.v` |
| `contracts/formula/auto_generate/common/functions.py`, `print_*.py` | `GeneratorModel.v` (integers), `DecimalModel.v`, `GeneratorReal.v` (100-digit `Decimal`s) |
| `contracts/utility/utils.py` (`require`, `check_*`, `is_positive`...), `owned.py`, `managed.py`, `token_holder.py`, `flexible_token_controller.py` | `World.v` |
| `contracts/irc_token`, `icx_token`, `flexible_token` | `World.v` |
| `contracts/converter/converter.py`, `contracts/network/network.py`, `contracts/score_registry` | `World.v` |
| path text and address text (`network.py` `_convert_bytes_data`, `convertFor`; `Address.from_string`/`str`) | `Codec.v` |
| request text: UTF-8 decoding, Python's `json.loads` and `json.dumps` (used by `network.py`, `converter.py`) | `JsonModel.v` |
| `contracts/utility/storage.py`, `proxy_score.py` | `StorageModel.v`, `ProxyModel.v` |
| `contract_generator/builder.py`, `writer.py`, `config.py` | `BuilderModel.v` |
| the text of the files under `contracts/` themselves, as syntax trees written by Python's own parser (`tools/gen_source.py`) | `PySyntax.v` (syntax), `PySource.v` (generated), `PySemantics.v` (an interpreter) |
| `build.py`; the relative imports of all modules under `contracts/` | `PackageModel.v` |

Two layers:

* **Formula layer.** Pure functions on `Z`; Python `//` is `Z.div` with an explicit error on a zero
  divisor, `>>`, `<<`, `&`, `|` are `Z.shiftr`, `Z.shiftl`, `Z.land`, `Z.lor`; unbounded Python integers are `Z`.
  `require` failures are `Err`.  Bounds against real arithmetic use Coq's `Reals`.
* **Contract layer.** A world maps addresses to ICX balances and to contract states and carries
  the event log.  Every external method is a message; `exec` interprets one message call,
  nested calls included; a call chain is bounded only by a fuel parameter over which every theorem
  quantifies.  Unknown contracts are *arbitrary programs* (`adv`, a parameter over which
  every theorem quantifies): they may keep state, read balances, call anybody (also re-entrantly)
  with any message and value, catch failures, and fail.  A transaction is an externally owned
  account calling anything, or deploying any genuine contract or adversarial contract.  A history is any finite
  list of transactions.

## 2. Trusted base

* Coq's kernel (checked again by `coqchk`), Coq's standard library and std++ (no axioms in std++).
* `Print Assumptions` of every property theorem is in the `Properties_*.v` files:
  contract-layer and integer theorems are closed under the global context; theorems that
  mention real numbers depend on the standard library's Reals axioms
  (`ClassicalDedekindReals.sig_forall_dec`, `ClassicalDedekindReals.sig_not_dec`,
  `FunctionalExtensionality.functional_extensionality_dep`, and `Classical_Prop.classic` where
  the library's analysis lemmas use it).
* The faithfulness of the hand-written transcription, argued definition by definition in comments with
  file and line references.  The integer constants are extracted mechanically from the source text.  For the formula and the six contracts this trust is
  replaced: C76 and C77 prove that interpreting the generated syntax trees gives the modelled functions, calls, transactions and
  reachable states; what is trusted there is `tools/gen_source.py` (a printer of Python's `ast`), the interpreter `PySemantics.v`
  with the simplifications listed at its head, and the service part of `SourceBase.v`.
* The semantics assumed for the ICON service (which is not in the repository): message-call
  semantics, rollback of a failed transaction, payability, read-only calls.  See `World.v` header.

## 3. Not modelled

* In the interpreter `PySemantics.v`: aliasing of lists and dictionaries (the code has none), the texts of exceptions, the
  indexing of `ConnectorDict` of `converter.py` (its shape is checked against the source, its meaning - one `Connector` per address - is a
  primitive; the database variables of `Connector` come from its `__init__`).  An answer
  of a foreign contract to `balanceOf` or `totalSupply` must be an integer at once; elsewhere a wrong type fails where it is used.
* A plain transfer of coins (even of zero coins) to a genuine contract without `fallback` fails.

* ICON fees / step limits, block height, SCORE updates to other code (updates to the same code: C78), the governance
  audit, serialization of databases, the values of floats in JSON (a float `minReturn` is refused by the model of the converter; the
  network refuses it in the code too), the interpreter's recursion limit for deeply nested JSON, `Logger` output, docstrings.
* `None` arguments to external methods (except the optional connector at converter installation).
* The bounds of `Decimal` exponents and the choice between two equally near Decimals: `DecimalModel.v` models every `Decimal`
  operation of the generator scripts as exact reals rounded to a nearest number of 100 digits.
  The printing of the scripts, `max_val_array` and the growth factor of `print_max_exp_per_precision` (only printed) are not modelled.
* Tests, argparse's option handling (`-h`, options) in `build.py`, zip compression (an archive is its list of entries), empty directories on disk.

## 4. Plan per property

| id | model | proof |
|---|---|---|
| C01-C03 | formula layer | integer bounds: power returns `2^p <= r`; case analysis |
| C04, C07 | formula layer + Reals | Taylor bounds for exp/ln, loop invariants of the logarithms, verified constant bounds |
| C05, C06 | formula layer + Reals | from C04 and integrality (an error below one unit cannot give profit) |
| C08-C10 | formula layer | binary search invariant; monotonicity of each intermediate value + evaluation at the table entry |
| C11 | generator model, `GeneratorReal.v` | evaluation of closed terms; search lemma for all monotone predicates; certified rational enclosures of exponentials, with a margin far above the rounding error of 100-digit Decimals, decide every floor |
| C12 | formula layer + Reals | refuted by a verified counterexample; the special cases are proved; up to one unit it is true, from the error bounds C07 and C63 |
| C13-C18 | contract layer | invariant over all histories, induction on call depth |
| C19 | contract layer | refuted (withdrawTo logs no Transfer), proved for IRC tokens, and for converters as holders of any token (no message a converter sends is a withdrawal: `exact_exec` in `WorldLogConv.v`, induction on the call depth) |
| C20, C21, C23, C24, C26, C30, C33, C34, C35, C41 | contract layer | per-method characterisation, all states/callers |
| C22, C26 | contract layer | relation preserved by every call tree |
| C25, C33, C36, C40, C42, C48, C52 | contract layer | the English claim is false of the code: refuted by a concrete execution of the model, with the true variant proved beside it |
| C27, C28, C53, C54 | contract layer | invariant over all histories |
| C29 | contract layer | integer division lemmas |
| C31 | contract layer | per-method characterisation; frame-structured induction over call trees: a loss of the connector is always accompanied by an explaining event |
| C32, C37-C39 | contract layer | symbolic execution of the conversion with honest tokens |
| C43-C45 | contract layer + codec | induction on lists/strings |
| C46, C47, C49 | contract layer | frame-structured relation over call trees; induction on the path |
| C50, C55 | contract layer | read-only relation over all call trees |
| C51 | contract layer | characterisation |
| C56-C58 | own small models (`StorageModel.v`, `ProxyModel.v`, `BuilderModel.v`) | induction over writes, requests, trees and copies |
| C70-C72 | `PackageModel.v` (build.py, crash states of FileWriter.write, the table of the repository's relative imports) | the modules reachable by imports lie in a set checked to be closed and packaged; the writes are determined by files outside the packages; case analysis of main |
| C61 | formula layer + Reals, `PoolSpec.v` | a weighted sum of logarithms is a potential; induction on the sequence, integrality |
| C62 | contract layer + `PoolSpec.v`, `TradingSpec.v` | strong induction over call trees (fuel): every call is a sequence of trades and gifts of the pool; while the converter pays an arbitrary trader (the registered network need not be genuine) the pool is already that after the trade, so what is called back is again such a sequence; then C61 |
| C63 | formula layer + Reals | truncation error of the series (Taylor remainder, telescoping logarithm series) and rounding error of each step, summed; certified rational enclosures of e and ln 2; above e^16 relative error of each truncated power of the Taylor polynomial |
| C64 | world layer | success of each step (C35) lifted along the path: every step changes only its own converter, converters are distinct; exact conditions of the payment in and the payout; specification in `ReadySpec.v` |
| C65 | `JsonModel.v`, specification `JsonSpec.v` | the scanner is sound and complete for the grammar (mutual induction on the grammar, induction on the fuel); UTF-8 by arithmetic; lifted to `asks`/`wants`, the payloads of the contract layer |
| C66 | formula layer + Reals, contract layer | real identity; the accuracy bounds C63 and Bernoulli's inequality; C34 and C37 give the contract's effect; a concrete execution drains |
| C67, C68 | formula layer + Reals, `FormulaSplit.v`, `FormulaRound.v` | the documented curves compose exactly (power of a product); the one-sided error bounds C04/C63 of the three calls; mean value bounds for the loss; integrality |
| C73-C75 | contract layer, specification `DirectSpec.v` | invariants of one transaction: no accountable role holder uses an administrative method it is entitled to unless the transaction starts with it; the calls of genuine contracts, and of unknown ones, are by contracts; direct calls by their exact effect |
| C69 | contract layer, specification `OpenSpec.v` | C59 for every contract on the path, C62 for every converter: the path stays open; then C64; without virtual balances the formula's bounds C02, C03 make every result deliverable |
| C76 | `PySource.v`, `PySemantics.v` | symbolic evaluation of each method; induction on the loops and the unrolled series, with enough fuel for every input |
| C59, C60 | contract layer | relation over histories / monotonicity of call results in the fuel |
| C77 | `PySource.v`, `PySemantics.v`, `SourceBase.v` | symbolic evaluation of every method of every class against the model (`SourceTokens.v`, `SourceConverter.v`, `SourceTrade.v`, `SourceFallback.v`, `SourcePath.v`, `SourceHop.v`, `SourceNetwork.v`), loops by induction on the path; induction on the call depth and on histories (`SourceExec.v`) |
| C78 | `SourceBase.v` (`run_update_src`) | the interpreter of C77 on the `on_update` of every class, computed (`SourceExec.v`) |
| C79 | `World.v` (call-depth limit = fuel of `exec`) | every message gets a rank, the number of nested frames it can need (by the kinds of sender and receiver and the form of the data); two computations are the `same` on all worlds with given kinds; each method sends only messages of smaller rank, induction on the rank (`WorldDepth.v`) |
| C80 | `World.v` with a malicious registry as unknown contract (`Properties_Registry.v`) | witness: the state, the code of the attacker and the six transactions, evaluated in the kernel; the set-up of C62 is shown to hold before |
| C81 | `World.v`; one converter as in C62 (`pool_set_up`, `stranger`), a genuine network, everything else unknown | a call by a contract never lowers a user's balance of the last token or of coins, and keeps the set-up of C62 (`exec_RR`); induction over the hops two entries at a time; the last hop by `hop_executed`, the payout by `payout_inv` (`WorldLast.v`) |
| C82 | contract layer, specification `PriceSpec.v` | every message call leaves balance and log in step (`foll_exec`, induction on the call depth): inside a conversion of the converter the balance is ahead of the log, the nested calls keep what they find, and the event at the end reports the balance of that moment (`WorldPrice.v`); for real balances (`WorldReal.v`) a payment of the connector token to or by the converter leaves it in debt to the log until the event at the end of that conversion settles it, and nobody else can move its tokens; roles held by accounts cannot be used by nested calls |
| C83 | contract layer, specification `IssueSpec.v` | every message call leaves the issuances and the announced purchases in step (`foll_exec` in `WorldIssue.v`, induction on the call depth): only the converter can issue, it does so only in a purchase, and no unknown code runs between the issuance and its Conversion event; the direct calls that hand over are treated separately |
| C84 | contract layer, specification `PaySpec.v` | every message call leaves payments and announced returns equal, but for the converter's own transfer of the token, which is ahead by its value until the Conversion event that follows (`R_exec` in `WorldPay.v`, induction on the call depth); the balance equation from the event accounting for converters (`WorldLogConv.v`, C19) |

The theorems are in `Properties_Formula.v` (C01-C12, C61, C63), `Properties_Tokens.v` (C13-C21), `Properties_Roles.v` (C22-C26, C59),
`Properties_Converter.v` (C27-C42), `Properties_Network.v` (C43-C52, C64), `Properties_System.v` (C53-C55, C60), `Properties_Trading.v` (C62), `Properties_Virtual.v` (C66), `Properties_Text.v` (C65), `Properties_Orders.v` (C67, C68), `Properties_Open.v` (C69), `Properties_Depth.v` (C79), `Properties_Registry.v` (C80), `Properties_Last.v` (C81), `Properties_Price.v` (C82), `Properties_Issue.v` (C83), `Properties_Pay.v` (C84), `Properties_Direct.v` (C73-C75, C22), `Properties_Source.v` (C76), `Properties_Contracts.v` (C77, C78),
`Properties_Tools.v` (C56-C58) and `Properties_Build.v` (C70-C72).  `WorldSpec.v` is the separate specification vocabulary of the contract layer (what an event log
says, what a genuine path is, ...); `Scenario.v` holds the concrete executions that show that hypotheses can be met.
The other `World*.v` files are proofs.  `seeded/LOG.jsonl` records wrong programs tried against the theorems.
