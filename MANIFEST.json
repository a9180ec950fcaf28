{
 "claims": [
  {
   "property": "C01",
   "status": "proved",
   "theorems": [
    "C01_purchase_domain",
    "C01_purchase_value"
   ],
   "note": ""
  },
  {
   "property": "C02",
   "status": "proved",
   "theorems": [
    "C02_sale_domain",
    "C02_sale_value"
   ],
   "note": ""
  },
  {
   "property": "C03",
   "status": "proved",
   "theorems": [
    "C03_cross_domain",
    "C03_cross_value"
   ],
   "note": ""
  },
  {
   "property": "C04",
   "status": "proved",
   "theorems": [
    "C04_power_total",
    "C04_power_upper_bound"
   ],
   "note": ""
  },
  {
   "property": "C05",
   "status": "proved",
   "theorems": [
    "C05_buy_then_sell_never_profits"
   ],
   "note": ""
  },
  {
   "property": "C06",
   "status": "proved",
   "theorems": [
    "C06_cross_round_trip_never_profits"
   ],
   "note": ""
  },
  {
   "property": "C07",
   "status": "proved",
   "theorems": [
    "C07_purchase_at_most_documented",
    "C07_sale_at_most_documented",
    "C07_cross_at_most_documented"
   ],
   "note": ""
  },
  {
   "property": "C08",
   "status": "proved",
   "theorems": [
    "C08_find_position"
   ],
   "note": ""
  },
  {
   "property": "C09",
   "status": "proved",
   "theorems": [
    "C09_floor_log2"
   ],
   "note": ""
  },
  {
   "property": "C10",
   "status": "proved",
   "theorems": [
    "C10_general_exp_fits_256_bits"
   ],
   "note": ""
  },
  {
   "property": "C11",
   "status": "proved",
   "theorems": [
    "C11_binary_search_correct",
    "C11_general_exp_coefficients",
    "C11_max_exp_array",
    "C11_scaling_factors",
    "C11_optimal_log_low_terms",
    "C11_optimal_exp_low_terms",
    "C11_optimal_log_high_terms",
    "C11_optimal_exp_high_terms",
    "C11_ln2_fraction"
   ],
   "note": ""
  },
  {
   "property": "C12",
   "status": "proved",
   "theorems": [
    "C12_monotone_purchase_refuted",
    "C12_monotone_sale_refuted",
    "C12_monotone_cross_refuted",
    "C12_monotone_special_cases",
    "C12_purchase_monotone_up_to_one_unit",
    "C12_sale_monotone_up_to_one_unit",
    "C12_cross_monotone_up_to_one_unit"
   ],
   "note": "The expected claim (monotonicity) is refuted for purchase, sale and cross quotes at the switch from _optimal_exp to _general_exp (fixed_map_formula.py:313-317); the exactly computed special cases are proved monotone. In general a larger amount yields at most one unit less (the *_monotone_up_to_one_unit theorems), from the two-sided error bounds C07 and C63."
  },
  {
   "property": "C13",
   "status": "proved",
   "theorems": [
    "C13_balances_are_observable",
    "C13_balances_sum_to_supply",
    "C13_no_group_holds_more_than_supply"
   ],
   "note": ""
  },
  {
   "property": "C14",
   "status": "proved",
   "theorems": [
    "C14_transfer_to_account",
    "C14_transfer_succeeds_iff",
    "C14_transfer_to_any"
   ],
   "note": ""
  },
  {
   "property": "C15",
   "status": "proved",
   "theorems": [
    "C15_icx_token_backed",
    "C15_every_holder_can_redeem",
    "C15_deposit",
    "C15_redeem_to",
    "C15_deposit_succeeds"
   ],
   "note": ""
  },
  {
   "property": "C16",
   "status": "proved",
   "theorems": [
    "C16_holder_is_safe",
    "C16_flexible_holder_is_safe"
   ],
   "note": "Stated for holders that are externally owned accounts."
  },
  {
   "property": "C17",
   "status": "proved",
   "theorems": [
    "C17_irc_supply_constant",
    "C17_issue",
    "C17_issue_succeeds_iff",
    "C17_destroy",
    "C17_destroy_succeeds_iff",
    "C17_withdrawTo",
    "C17_withdraw_to_any"
   ],
   "note": ""
  },
  {
   "property": "C18",
   "status": "proved",
   "theorems": [
    "C18_supply_accounted_by_events"
   ],
   "note": ""
  },
  {
   "property": "C19",
   "status": "proved",
   "theorems": [
    "C19_converter_balances_are_exact",
    "C19_events_give_balances",
    "C19_icx_events_overstate",
    "C19_icx_events_refuted"
   ],
   "note": "The naive claim is refuted for ICX tokens (C19_icx_events_refuted); it holds of converters, which never withdraw (C19_converter_balances_are_exact)."
  },
  {
   "property": "C20",
   "status": "proved",
   "theorems": [
    "C20_disabled_means_disabled",
    "C20_only_owner_switches",
    "C20_outsiders_cannot_switch"
   ],
   "note": ""
  },
  {
   "property": "C21",
   "status": "proved",
   "theorems": [
    "C21_receiver_must_handle_tokens"
   ],
   "note": ""
  },
  {
   "property": "C22",
   "status": "proved",
   "theorems": [
    "C22_ownership_moves_only_by_direct_calls",
    "C22_owner_is_observable",
    "C22_third_parties_cannot_move_ownership",
    "C22_accounts",
    "C22_possible_owners"
   ],
   "note": ""
  },
  {
   "property": "C23",
   "status": "proved",
   "theorems": [
    "C23_nomination",
    "C23_acceptance",
    "C23_nobody_is_zero"
   ],
   "note": ""
  },
  {
   "property": "C24",
   "status": "proved",
   "theorems": [
    "C24_owner_only",
    "C24_owner_or_manager_only",
    "C24_the_methods"
   ],
   "note": "One hypothesis: withdrawTokens of a converter whose flexible token is NOT genuine, called by a contract, is excluded (the foreign token is called before the owner check and might make the caller owner)."
  },
  {
   "property": "C25",
   "status": "proved",
   "theorems": [
    "C25_no_manager_after_installation_refuted",
    "C25_owner_appoints_first_manager"
   ],
   "note": "Expected claim refuted: FlexibleTokenController.on_install does not call Managed.on_install."
  },
  {
   "property": "C26",
   "status": "proved",
   "theorems": [
    "C26_nomination",
    "C26_acceptance",
    "C26_third_parties_cannot_move_management"
   ],
   "note": ""
  },
  {
   "property": "C27",
   "status": "proved",
   "theorems": [
    "C27_converter_is_observable",
    "C27_connectors_consistent"
   ],
   "note": ""
  },
  {
   "property": "C28",
   "status": "proved",
   "theorems": [
    "C28_fee_bounded",
    "C28_fixed_once_set",
    "C28_connectors_stay"
   ],
   "note": ""
  },
  {
   "property": "C29",
   "status": "proved",
   "theorems": [
    "C29_final_amount",
    "C29_final_amount_monotone",
    "C29_quote_and_fee"
   ],
   "note": ""
  },
  {
   "property": "C30",
   "status": "proved",
   "theorems": [
    "C30_add_connector",
    "C30_not_while_active"
   ],
   "note": ""
  },
  {
   "property": "C31",
   "status": "proved",
   "theorems": [
    "C31_no_withdrawal_while_active",
    "C31_leave_only_by_conversions"
   ],
   "note": ""
  },
  {
   "property": "C32",
   "status": "proved",
   "theorems": [
    "C32_accepted_or_rejected",
    "C32_funding_works"
   ],
   "note": ""
  },
  {
   "property": "C33",
   "status": "proved",
   "theorems": [
    "C33_manager_cannot_fund_refuted"
   ],
   "note": "Expected claim refuted: converter.py compares with self.getManager without calling it."
  },
  {
   "property": "C34",
   "status": "proved",
   "theorems": [
    "C34_min_return"
   ],
   "note": ""
  },
  {
   "property": "C35",
   "status": "proved",
   "theorems": [
    "C35_exactly_when",
    "C35_conversions_disabled",
    "C35_purchases_disabled",
    "C35_sales_unaffected"
   ],
   "note": ""
  },
  {
   "property": "C36",
   "status": "proved",
   "theorems": [
    "C36_switch_ignored_refuted",
    "C36_example_refuted"
   ],
   "note": "Expected claim refuted."
  },
  {
   "property": "C37",
   "status": "proved",
   "theorems": [
    "C37_purchase",
    "C37_sale",
    "C37_cross"
   ],
   "note": ""
  },
  {
   "property": "C38",
   "status": "proved",
   "theorems": [
    "C38_no_depletion"
   ],
   "note": ""
  },
  {
   "property": "C39",
   "status": "proved",
   "theorems": [
    "C39_executed_as_quoted",
    "C39_sales_have_no_virtual_source"
   ],
   "note": ""
  },
  {
   "property": "C40",
   "status": "proved",
   "theorems": [
    "C40_quote_and_execution_differ",
    "C40_large_amounts_fail",
    "C40_example_refuted",
    "C40_at_least_the_quote_less_one"
   ],
   "note": "Expected claim refuted; exact behaviour proved. C40_at_least_the_quote_less_one: the executed amount is at least the quote less one unit, for trades within the formula's range (reserve less the amount at least an 8,000,000th of the reserve, supply below 2^113, other reserve below 2^99)."
  },
  {
   "property": "C41",
   "status": "proved",
   "theorems": [
    "C41_update_registry",
    "C41_restore_registry",
    "C41_restore_blocks_outsiders"
   ],
   "note": ""
  },
  {
   "property": "C42",
   "status": "proved",
   "theorems": [
    "C42_who_can_allow_updates",
    "C42_manager_lifts_block_refuted"
   ],
   "note": "Documented claim refuted; exact behaviour proved."
  },
  {
   "property": "C43",
   "status": "proved",
   "theorems": [
    "C43_valid_paths",
    "C43_paths_are_checked"
   ],
   "note": ""
  },
  {
   "property": "C44",
   "status": "proved",
   "theorems": [
    "C44_path_text",
    "C44_round_trip",
    "C44_addresses_have_one_text"
   ],
   "note": ""
  },
  {
   "property": "C45",
   "status": "proved",
   "theorems": [
    "C45_requests",
    "C45_direct_calls",
    "C45_unambiguous"
   ],
   "note": ""
  },
  {
   "property": "C46",
   "status": "proved",
   "theorems": [
    "C46_coins",
    "C46_tokens"
   ],
   "note": ""
  },
  {
   "property": "C47",
   "status": "proved",
   "theorems": [
    "C47_token_conversion",
    "C47_coin_conversion",
    "C47_any_beneficiary_token",
    "C47_any_beneficiary_coins"
   ],
   "note": "Contracts on the path genuine (for other paths see C48). The first two theorems take an externally owned account as recipient, the C47_any_* theorems any recipient."
  },
  {
   "property": "C48",
   "status": "proved",
   "theorems": [
    "C48_minimum_not_enforced_by_network",
    "C48_any_minimum_accepted"
   ],
   "note": "Expected claim refuted, by a concrete reachable state and, in every state, by any path through a flexible token owned by a user."
  },
  {
   "property": "C49",
   "status": "proved",
   "theorems": [
    "C49_token_conversion",
    "C49_coin_conversion"
   ],
   "note": "Recipient an externally owned account; for any recipient see the last conjunct of C47_any_beneficiary_token and _coins."
  },
  {
   "property": "C50",
   "status": "proved",
   "theorems": [
    "C50_queries",
    "C50_read_only_context"
   ],
   "note": ""
  },
  {
   "property": "C51",
   "status": "proved",
   "theorems": [
    "C51_convert"
   ],
   "note": ""
  },
  {
   "property": "C52",
   "status": "proved",
   "theorems": [
    "C52_marked_tokens_stay",
    "C52_requests_leave_nothing"
   ],
   "note": "Expected claim refuted in general; exact behaviour proved."
  },
  {
   "property": "C53",
   "status": "proved",
   "theorems": [
    "C53_valid_entries",
    "C53_latest_registration",
    "C53_register",
    "C53_registered",
    "C53_unregister",
    "C53_unregistered",
    "C53_fresh_registry"
   ],
   "note": ""
  },
  {
   "property": "C54",
   "status": "proved",
   "theorems": [
    "C54_identity"
   ],
   "note": ""
  },
  {
   "property": "C55",
   "status": "proved",
   "theorems": [
    "C55_all_or_nothing",
    "C55_failures_propagate",
    "C55_depth"
   ],
   "note": ""
  },
  {
   "property": "C56",
   "status": "proved",
   "theorems": [
    "C56_reads_the_last_write",
    "C56_values_persist",
    "C56_containers_cannot_be_replaced"
   ],
   "note": ""
  },
  {
   "property": "C57",
   "status": "proved",
   "theorems": [
    "C57_every_request_succeeds",
    "C57_same_class_same_proxy",
    "C57_one_function_per_abstract_method",
    "C57_shared_methods_share_the_function",
    "C57_failures_are_no_functions"
   ],
   "note": ""
  },
  {
   "property": "C58",
   "status": "proved",
   "theorems": [
    "C58_package_contents",
    "C58_refusals",
    "C58_files_written",
    "C58_writing_succeeds",
    "C58_archive_has_the_same_files"
   ],
   "note": ""
  },
  {
   "property": "C59",
   "status": "proved",
   "theorems": [
    "C59_outsiders_cannot_change_settings"
   ],
   "note": ""
  },
  {
   "property": "C60",
   "status": "proved",
   "theorems": [
    "C60_owner",
    "C60_converter_settings"
   ],
   "note": ""
  },
  {
   "property": "C61",
   "status": "proved",
   "theorems": [
    "C61_value_never_falls",
    "C61_reserve_never_drained",
    "C61_no_tokens_for_free"
   ],
   "note": ""
  },
  {
   "property": "C62",
   "status": "proved",
   "theorems": [
    "C62_outsiders_only_trade",
    "C62_reserve_never_drained",
    "C62_no_tokens_for_free",
    "C62_value_never_falls",
    "C62_network_stays"
   ],
   "note": ""
  },
  {
   "property": "C63",
   "status": "proved",
   "theorems": [
    "C63_power_lower_bound",
    "C63_purchase_at_least_documented",
    "C63_sale_at_least_documented",
    "C63_cross_at_least_documented",
    "C63_large_power",
    "C63_large_purchase",
    "C63_huge_deposit_refuted"
   ],
   "note": "The expectation that quotes are accurate for every amount is refuted for huge deposits (C63_huge_deposit_refuted); what is computed there is proved to be the Taylor polynomial of degree 33 (C63_large_power, C63_large_purchase)."
  },
  {
   "property": "C64",
   "status": "proved",
   "theorems": [
    "C64_token_conversion",
    "C64_coin_conversion",
    "C64_lower_minimum"
   ],
   "note": ""
  },
  {
   "property": "C65",
   "status": "proved",
   "theorems": [
    "C65_utf8",
    "C65_json",
    "C65_json_round_trip",
    "C65_network_reads",
    "C65_only_requests",
    "C65_converter_reads",
    "C65_network_writes"
   ],
   "note": ""
  },
  {
   "property": "C66",
   "status": "proved",
   "theorems": [
    "C66_ideal_profit",
    "C66_round_trip_profit",
    "C66_drained_refuted"
   ],
   "note": "Expected claim refuted by a concrete reachable state and transactions; the gain is proved in general."
  },
  {
   "property": "C67",
   "status": "proved",
   "theorems": [
    "C67_splitting_a_purchase",
    "C67_splitting_a_sale",
    "C67_splitting_a_cross_conversion"
   ],
   "note": ""
  },
  {
   "property": "C68",
   "status": "proved",
   "theorems": [
    "C68_buy_then_sell_costs_rounding",
    "C68_cross_round_trip_costs_rounding"
   ],
   "note": ""
  },
  {
   "property": "C69",
   "status": "proved",
   "theorems": [
    "C69_bystanders_cannot_stop_token_conversions",
    "C69_bystanders_cannot_stop_coin_conversions",
    "C69_holders_can_sell"
   ],
   "note": ""
  },
  {
   "property": "C70",
   "status": "proved",
   "theorems": [
    "C70_packages_are_complete"
   ],
   "note": ""
  },
  {
   "property": "C71",
   "status": "proved",
   "theorems": [
    "C71_interrupted_builds"
   ],
   "note": ""
  },
  {
   "property": "C72",
   "status": "proved",
   "theorems": [
    "C72_wrong_names_change_nothing",
    "C72_clean",
    "C72_builds",
    "C72_other_directories_refuted"
   ],
   "note": ""
  },
  {
   "property": "C73",
   "status": "proved",
   "theorems": [
    "C73_settings_change_only_by_direct_call",
    "C73_accounts"
   ],
   "note": ""
  },
  {
   "property": "C74",
   "status": "proved",
   "theorems": [
    "C74_tokens_leave_only_by_direct_calls",
    "C74_flexible_tokens_leave_only_by_direct_calls"
   ],
   "note": ""
  },
  {
   "property": "C75",
   "status": "proved",
   "theorems": [
    "C75_coins_leave_only_as_attached"
   ],
   "note": ""
  },
  {
   "property": "C76",
   "status": "proved",
   "theorems": [
    "C76_purchase_as_written",
    "C76_sale_as_written",
    "C76_cross_as_written"
   ],
   "note": "interpreter of the Python syntax tree that Python's own parser gave for the file (PySyntax.v, PySource.v, PySemantics.v); equality of its result with FormulaModel.v for all integers (SourceFormula.v)"
  },
  {
   "property": "C77",
   "status": "proved",
   "theorems": [
    "C77_transactions_as_written",
    "C77_calls_as_written",
    "C77_always_a_meaning",
    "C77_histories_as_written"
   ],
   "note": "interpreter of the Python syntax trees of all contract files (PySyntax.v, PySource.v, PySemantics.v) inside the service semantics of SourceBase.v; equality with World.v for every message of every contract (SourceTokens/Converter/Trade/Fallback/Path/Hop/Network.v), then induction on the call depth and on histories (SourceExec.v). Interface SCOREs have the abstract methods of their class only, classes with an unimplemented abstract method cannot be deployed, database keys and types are read from __init__; of the storage class ConnectorDict the shape is checked, and its indexing is a primitive of the interpreter."
  },
  {
   "property": "C78",
   "status": "proved",
   "theorems": [
    "C78_updates_change_nothing"
   ],
   "note": "the interpreter of C77 run on every on_update; full"
  },
  {
   "property": "C79",
   "status": "proved",
   "theorems": [
    "C79_six_frames_suffice",
    "C79_histories"
   ],
   "note": "rank of every message, each method sends only messages of smaller rank (WorldDepth.v); full; six is shown to be needed, unknown contracts to be unbounded"
  },
  {
   "property": "C80",
   "status": "proved",
   "theorems": [
    "C80_registry_owner_drains_refuted"
   ],
   "note": "refutation of the expected property, full: a concrete reachable state, attacker contract and history; shows why C62 needs the registry and its owner"
  },
  {
   "property": "C81",
   "status": "proved",
   "theorems": [
    "C81_minimum_enforced_by_last_hop",
    "C81_minimum_enforced_for_coins",
    "C81_last_source_must_be_genuine"
   ],
   "note": "full for user accounts as sender and beneficiary: the invariant of C62 through the arbitrary hops, the exact effect of the last hop and of the payout (WorldLast.v); the condition on the last source is shown to be needed"
  },
  {
   "property": "C82",
   "status": "proved",
   "theorems": [
    "C82_virtual_balance_is_reported",
    "C82_histories",
    "C82_real_balance_is_reported",
    "C82_real_histories",
    "C82_as_answered",
    "C82_reset_is_silent"
   ],
   "note": "full for connectors with a virtual balance, and for connectors without one that trade a genuine IRC2 or ICX token; a flexible token as a connector without virtual balance is left out, since its owner can issue to and destroy from the converter (C16)"
  },
  {
   "property": "C83",
   "status": "proved",
   "theorems": [
    "C83_issued_only_in_conversions",
    "C83_control_stays",
    "C83_histories"
   ],
   "note": "full, per transaction and for histories; an execution shows that after a hand-over tokens are issued unannounced"
  },
  {
   "property": "C84",
   "status": "proved",
   "theorems": [
    "C84_payments_are_announced",
    "C84_histories",
    "C84_balance"
   ],
   "note": "full, per transaction and for histories; with the balance equation for IRC2 and ICX tokens; an execution shows an unannounced withdrawal by the owner"
  }
 ]
}