{
 "C12": [
  "proved",
  "The expected claim (monotonicity) is refuted for purchase, sale and cross quotes at the switch from _optimal_exp to _general_exp (fixed_map_formula.py:313-317); the exactly computed special cases are proved monotone. In general a larger amount yields at most one unit less (the *_monotone_up_to_one_unit theorems), from the two-sided error bounds C07 and C63."
 ],
 "C19": [
  "proved",
  "The naive claim is refuted for ICX tokens (C19_icx_events_refuted); it holds of converters, which never withdraw (C19_converter_balances_are_exact)."
 ],
 "C25": [
  "proved",
  "Expected claim refuted: FlexibleTokenController.on_install does not call Managed.on_install."
 ],
 "C33": [
  "proved",
  "Expected claim refuted: converter.py compares with self.getManager without calling it."
 ],
 "C36": [
  "proved",
  "Expected claim refuted."
 ],
 "C40": [
  "proved",
  "Expected claim refuted; exact behaviour proved. C40_at_least_the_quote_less_one: the executed amount is at least the quote less one unit, for trades within the formula's range (reserve less the amount at least an 8,000,000th of the reserve, supply below 2^113, other reserve below 2^99)."
 ],
 "C42": [
  "proved",
  "Documented claim refuted; exact behaviour proved."
 ],
 "C47": [
  "proved",
  "Contracts on the path genuine (for other paths see C48). The first two theorems take an externally owned account as recipient, the C47_any_* theorems any recipient."
 ],
 "C48": [
  "proved",
  "Expected claim refuted, by a concrete reachable state and, in every state, by any path through a flexible token owned by a user."
 ],
 "C49": [
  "proved",
  "Recipient an externally owned account; for any recipient see the last conjunct of C47_any_beneficiary_token and _coins."
 ],
 "C52": [
  "proved",
  "Expected claim refuted in general; exact behaviour proved."
 ],
 "C24": [
  "proved",
  "One hypothesis: withdrawTokens of a converter whose flexible token is NOT genuine, called by a contract, is excluded (the foreign token is called before the owner check and might make the caller owner)."
 ],
 "C16": [
  "proved",
  "Stated for holders that are externally owned accounts."
 ],
 "C66": [
  "proved",
  "Expected claim refuted by a concrete reachable state and transactions; the gain is proved in general."
 ],
 "C63": [
  "proved",
  "The expectation that quotes are accurate for every amount is refuted for huge deposits (C63_huge_deposit_refuted); what is computed there is proved to be the Taylor polynomial of degree 33 (C63_large_power, C63_large_purchase)."
 ],
 "C76": [
  "proved",
  "interpreter of the Python syntax tree that Python's own parser gave for the file (PySyntax.v, PySource.v, PySemantics.v); equality of its result with FormulaModel.v for all integers (SourceFormula.v)"
 ],
 "C77": [
  "proved",
  "interpreter of the Python syntax trees of all contract files (PySyntax.v, PySource.v, PySemantics.v) inside the service semantics of SourceBase.v; equality with World.v for every message of every contract (SourceTokens/Converter/Trade/Fallback/Path/Hop/Network.v), then induction on the call depth and on histories (SourceExec.v). Interface SCOREs have the abstract methods of their class only, classes with an unimplemented abstract method cannot be deployed, database keys and types are read from __init__; of the storage class ConnectorDict the shape is checked, and its indexing is a primitive of the interpreter."
 ],
 "C78": [
  "proved",
  "the interpreter of C77 run on every on_update; full"
 ],
 "C79": [
  "proved",
  "rank of every message, each method sends only messages of smaller rank (WorldDepth.v); full; six is shown to be needed, unknown contracts to be unbounded"
 ],
 "C80": [
  "proved",
  "refutation of the expected property, full: a concrete reachable state, attacker contract and history; shows why C62 needs the registry and its owner"
 ],
 "C81": [
  "proved",
  "full for user accounts as sender and beneficiary: the invariant of C62 through the arbitrary hops, the exact effect of the last hop and of the payout (WorldLast.v); the condition on the last source is shown to be needed"
 ],
 "C82": [
  "proved",
  "full for connectors with a virtual balance, and for connectors without one that trade a genuine IRC2 or ICX token; a flexible token as a connector without virtual balance is left out, since its owner can issue to and destroy from the converter (C16)"
 ],
 "C83": [
  "proved",
  "full, per transaction and for histories; an execution shows that after a hand-over tokens are issued unannounced"
 ],
 "C84": [
  "proved",
  "full, per transaction and for histories; with the balance equation for IRC2 and ICX tokens; an execution shows an unannounced withdrawal by the owner"
 ]
}