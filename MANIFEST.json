{
 "claims": [
  {
   "property": "C01",
   "status": "proved",
   "theorems": [
    "C01_swap_preserves_product"
   ],
   "note": ""
  },
  {
   "property": "C02",
   "status": "proved",
   "theorems": [
    "C02_round_trip_no_profit",
    "C02_swap_sequences_no_profit"
   ],
   "note": ""
  },
  {
   "property": "C03",
   "status": "proved",
   "theorems": [
    "C03_lp_share_value_never_decreases"
   ],
   "note": ""
  },
  {
   "property": "C04",
   "status": "proved",
   "theorems": [
    "C04_amm_solvent"
   ],
   "note": ""
  },
  {
   "property": "C05",
   "status": "proved",
   "theorems": [
    "C05_add_liquidity_bounds"
   ],
   "note": ""
  },
  {
   "property": "C06",
   "status": "proved",
   "theorems": [
    "C06_remove_liquidity_pro_rata"
   ],
   "note": ""
  },
  {
   "property": "C07",
   "status": "proved",
   "theorems": [
    "C07_pool_never_drained",
    "C07_pools_are_never_removed"
   ],
   "note": ""
  },
  {
   "property": "C08",
   "status": "proved",
   "theorems": [
    "C08_pair_order_irrelevant",
    "C08_create_pool_only_once_with_fresh_lp",
    "C08_identical_assets_rejected",
    "C08_lp_tokens_unique"
   ],
   "note": ""
  },
  {
   "property": "C09",
   "status": "partial",
   "theorems": [
    "C09_exact_output_quote_partial",
    "C09_exact_output_quote_plus_one_partial",
    "C09_exact_output_quote_sufficient_refuted"
   ],
   "note": "The full property is false of the code: _refuted gives a concrete quote whose execution delivers less. Proved instead: sufficient when the division is exact, and always sufficient with one more unit."
  },
  {
   "property": "C10",
   "status": "partial",
   "theorems": [
    "C10_cumulative_price_partial",
    "C10_twap_records_pre_trade_price_refuted"
   ],
   "note": "Monotonicity and exact increments proved; the increment uses post-trade reserves, so \"records the price in force during the interval\" is refuted by a reachable witness."
  },
  {
   "property": "C11",
   "status": "partial",
   "theorems": [
    "C11_protocol_fee_at_most_growth_partial",
    "C11_reserves_recorded_when_fee_on",
    "C11_protocol_fee_at_most_growth_refuted"
   ],
   "note": "Holds when reserves were recorded at the previous liquidity event; refuted for pools that existed before the fee was enabled."
  },
  {
   "property": "C12",
   "status": "proved",
   "theorems": [
    "C12_exact_input_honours_minimum_and_quote",
    "C12_routed_trades_preserve_pools",
    "C12_exact_output_trades_preserve_pools"
   ],
   "note": ""
  },
  {
   "property": "C13",
   "status": "partial",
   "theorems": [
    "C13_exact_output_partial",
    "C13_exact_output_delivers_refuted",
    "C13_only_first_token_debited_refuted"
   ],
   "note": "Maximum honoured and shortfall bounded; \"delivers at least amount_out\" is false of the code (witness), and the trader can also lose an intermediate token."
  },
  {
   "property": "C14",
   "status": "proved",
   "theorems": [
    "C14_all_routes_are_exactly_the_simple_routes",
    "C14_best_route_optimal",
    "C14_best_route_found",
    "C14_best_route_executable_refuted"
   ],
   "note": "Enumeration and optimality proved for every storage order; additionally the best route may exceed MaxLengthRoute (witness)."
  },
  {
   "property": "C15",
   "status": "proved",
   "theorems": [
    "C15_streaming_solvent"
   ],
   "note": ""
  },
  {
   "property": "C16",
   "status": "proved",
   "theorems": [
    "C16_never_paid_ahead_of_schedule"
   ],
   "note": ""
  },
  {
   "property": "C17",
   "status": "proved",
   "theorems": [
    "C17_deposit_conserved",
    "C17_every_stream_was_created"
   ],
   "note": ""
  },
  {
   "property": "C18",
   "status": "proved",
   "theorems": [
    "C18_cancel_splits_fairly"
   ],
   "note": ""
  },
  {
   "property": "C19",
   "status": "proved",
   "theorems": [
    "C19_withdraw_only_recipient"
   ],
   "note": "In the native asset a withdrawal that would leave at most the existential deposit pays the whole remainder; the theorem states the exact paid amount."
  },
  {
   "property": "C20",
   "status": "proved",
   "theorems": [
    "C20_stream_lists",
    "C20_unfinished_stream_kept"
   ],
   "note": ""
  },
  {
   "property": "C42",
   "status": "proved",
   "theorems": [
    "C42_withdraw_never_blocked",
    "C42_cancel_never_blocked"
   ],
   "note": ""
  },
  {
   "property": "C43",
   "status": "proved",
   "theorems": [
    "C43_create_effect"
   ],
   "note": ""
  },
  {
   "property": "C44",
   "status": "partial",
   "theorems": [
    "C44_creation_event_partial",
    "C44_event_reports_cancellable_refuted"
   ],
   "note": "The event hard-codes cancellable = true (lib.rs:538); refuted by a reachable witness. All other fields are proved."
  },
  {
   "property": "C21",
   "status": "proved",
   "theorems": [
    "C21_pool_total_is_sum_of_positions"
   ],
   "note": ""
  },
  {
   "property": "C22",
   "status": "proved",
   "theorems": [
    "C22_principal_backed",
    "C22_user_principal_backed"
   ],
   "note": "Backing (principal and undistributed rewards) proved for every reachable state. Whether a due withdraw call can fail for arithmetic reasons is C45. Assumes the payer named by governance in dispatch_reward is not a pool account."
  },
  {
   "property": "C23",
   "status": "proved",
   "theorems": [
    "C23_withdraw_effect",
    "C23_redeem_effect"
   ],
   "note": ""
  },
  {
   "property": "C24",
   "status": "proved",
   "theorems": [
    "C24_rewards_never_over_distributed"
   ],
   "note": ""
  },
  {
   "property": "C25",
   "status": "proved",
   "theorems": [
    "C25_accumulator_monotone",
    "C25_reward_never_lost",
    "C25_claim_pays_exactly"
   ],
   "note": ""
  },
  {
   "property": "C45",
   "status": "partial",
   "theorems": [
    "C45_redeem_never_blocked",
    "C45_withdraw_not_blocked_partial",
    "C45_claim_not_blocked_partial",
    "C45_withdraw_never_blocked_refuted"
   ],
   "note": "redeem is never blocked; withdraw/claim succeed whenever the u128 accumulator fits; a reachable witness shows the accumulator overflowing and the principal stuck."
  },
  {
   "property": "C46",
   "status": "partial",
   "theorems": [
    "C46_dispatch_effect_partial",
    "C46_everything_dispatched_is_claimable_refuted"
   ],
   "note": "Exact effect of a dispatch and the bound on rate rounding proved; full claimability is false (witness)."
  },
  {
   "property": "C47",
   "status": "proved",
   "theorems": [
    "C47_position_only_changed_by_owner",
    "C47_deposit_effect"
   ],
   "note": ""
  },
  {
   "property": "C26",
   "status": "proved",
   "theorems": [
    "C26_jump_model",
    "C26_curve_model",
    "C26_supply_rate_at_most_borrow_rate"
   ],
   "note": "Jump models with jump utilisation 0 are the subject of C27."
  },
  {
   "property": "C27",
   "status": "partial",
   "theorems": [
    "C27_rate_defined_partial",
    "C27_refuted",
    "C27_refuted_market_bricked"
   ],
   "note": "Defined for every accepted model with a non-zero jump utilisation; a jump model with jump utilisation 0 is accepted and bricks an idle market (all calls that accrue fail)."
  },
  {
   "property": "C28",
   "status": "proved",
   "theorems": [
    "C28_accrual",
    "C28_accrual_amounts",
    "C28_debts_never_shrink_by_themselves"
   ],
   "note": ""
  },
  {
   "property": "C29",
   "status": "proved",
   "theorems": [
    "C29_exchange_rate_never_falls",
    "C29_first_deposit_rate"
   ],
   "note": "For every step of every history, including liquidation, governance calls, donations."
  },
  {
   "property": "C30",
   "status": "proved",
   "theorems": [
    "C30_supply_is_sum_of_vouchers"
   ],
   "note": ""
  },
  {
   "property": "C31",
   "status": "partial",
   "theorems": [
    "C31_borrow_partial",
    "C31_borrow_liquidation_free_asset_partial",
    "C31_redeem_partial",
    "C31_disable_collateral",
    "C31_transfer_partial",
    "C31_refuted_borrow",
    "C31_refuted_transfer",
    "C31_refuted_redeem_stale_interest"
   ],
   "note": "Proved relative to the state in which only the touched market has accrued, and for transfers only when the stored rate is fresh; the full statement (current interest in all markets, fresh rates, one total for both kinds of collateral) is refuted by three reachable witnesses."
  },
  {
   "property": "C32",
   "status": "proved",
   "theorems": [
    "C32_liquidation"
   ],
   "note": ""
  },
  {
   "property": "C33",
   "status": "partial",
   "theorems": [
    "C33_borrow_cap_and_reserves",
    "C33_supply_cap_partial",
    "C33_refuted_supply_cap"
   ],
   "note": "Borrow cap and reserves proved in full; the supply cap bounds only the cash, what suppliers own together can exceed it (reachable witness)."
  },
  {
   "property": "C34",
   "status": "partial",
   "theorems": [
    "C34_transfer_rewards_partial",
    "C34_refuted"
   ],
   "note": "do_transfer settles rewards for the ptoken id instead of the underlying: a transfer to a fresh account creates rewards (reachable witness, claimed in full). Proved: no gain when the receiver was credited at least as recently as the sender."
  },
  {
   "property": "C35",
   "status": "partial",
   "theorems": [
    "C35_no_panic_partial",
    "C35_liquidation_no_panic_partial",
    "C35_refuted",
    "C35_refuted_price_overflow"
   ],
   "note": "No call panics when liquidation incentives are >= 1 and there is no liquidation-free collateral; both conditions are necessary (reachable witnesses)."
  },
  {
   "property": "C36",
   "status": "proved",
   "theorems": [
    "C36_repay",
    "C36_repay_all"
   ],
   "note": ""
  },
  {
   "property": "C48",
   "status": "proved",
   "theorems": [
    "C48_amm",
    "C48_amm_pools",
    "C48_farming",
    "C48_streaming",
    "C48_lending_parameters",
    "C48_lending_origins",
    "C48_lending_reserves",
    "C48_liquid_staking_origins"
   ],
   "note": ""
  },
  {
   "property": "C49",
   "status": "proved",
   "theorems": [
    "C49_reserves_covered",
    "C49_vouchers_covered"
   ],
   "note": ""
  },
  {
   "property": "C50",
   "status": "proved",
   "theorems": [
    "C50_debts",
    "C50_vouchers"
   ],
   "note": ""
  },
  {
   "property": "C51",
   "status": "proved",
   "theorems": [
    "C51_mint",
    "C51_redeem",
    "C51_round_trip"
   ],
   "note": ""
  },
  {
   "property": "C37",
   "status": "proved",
   "theorems": [
    "C37_rate_never_falls",
    "C37_rate_moves_with_the_era",
    "C37_round_trip"
   ],
   "note": ""
  },
  {
   "property": "C38",
   "status": "proved",
   "theorems": [
    "C38_matching",
    "C38_reserved_at_most_total",
    "C38_confirming_stake",
    "C38_confirming_unstake"
   ],
   "note": ""
  },
  {
   "property": "C39",
   "status": "proved",
   "theorems": [
    "C39_unstake_promise",
    "C39_claim",
    "C39_claim_for_lending",
    "C39_queue_is_private"
   ],
   "note": "The chunk total of a queue is exact while it fits u128 (saturating addition)."
  },
  {
   "property": "C40",
   "status": "proved",
   "theorems": [
    "C40_ledgers_consistent",
    "C40_bond_extra",
    "C40_unbond",
    "C40_rebond",
    "C40_consolidate"
   ],
   "note": ""
  },
  {
   "property": "C41",
   "status": "partial",
   "theorems": [
    "C41_bond_partial",
    "C41_maxmin_bond_exact",
    "C41_unbond",
    "C41_rebond",
    "C41_minimum_bond_refuted"
   ],
   "note": "Amount, cap and minimum bond proved for unbond and rebond and for MaxMin bonds; the Average strategy checks the minimum against the share before capping it, so a bond can leave an account below the minimum (witness)."
  },
  {
   "property": "C52",
   "status": "proved",
   "theorems": [
    "C52_stake"
   ],
   "note": ""
  },
  {
   "property": "C53",
   "status": "proved",
   "theorems": [
    "C53_unstake",
    "C53_unstake_instant"
   ],
   "note": ""
  },
  {
   "property": "C54",
   "status": "proved",
   "theorems": [
    "C54_request",
    "C54_match",
    "C54_cancel"
   ],
   "note": ""
  },
  {
   "property": "C55",
   "status": "proved",
   "theorems": [
    "C55_pallet_solvent"
   ],
   "note": ""
  },
  {
   "property": "C56",
   "status": "proved",
   "theorems": [
    "C56_promises_covered"
   ],
   "note": ""
  },
  {
   "property": "C57",
   "status": "partial",
   "theorems": [
    "C57_liquid_tokens_backed_partial",
    "C57_refuted"
   ],
   "note": "Holds while no confirmed rebond exceeds what is unlocking and governance lowers no ledger; a reachable history with two rebond requests for the same unlocking chunk breaks it."
  },
  {
   "property": "C58",
   "status": "proved",
   "theorems": [
    "C58_reserved_is_requested"
   ],
   "note": ""
  },
  {
   "property": "C59",
   "status": "partial",
   "theorems": [
    "C59_failed_response_harmless_partial",
    "C59_only_success_closes",
    "C59_refuted"
   ],
   "note": "The code ignores failed responses: the request and its reservation stay forever and block ledger updates (witness)."
  },
  {
   "property": "C60",
   "status": "proved",
   "theorems": [
    "C60_lending_intact"
   ],
   "note": ""
  },
  {
   "property": "C61",
   "status": "partial",
   "theorems": [
    "C61_unstake_reserves_held_refuted"
   ],
   "note": "Refuted: a fast-unstake request counts its reserve share without taking tokens (witness)."
  },
  {
   "property": "C62",
   "status": "partial",
   "theorems": [
    "C62_response_no_panic_partial",
    "C62_refuted"
   ],
   "note": "No panic when the confirmed amount fits the ledger; two unbond requests for the same stake make the second confirmation panic (witness)."
  },
  {
   "property": "C63",
   "status": "partial",
   "theorems": [
    "C63_block_hook_succeeds_partial",
    "C63_refuted"
   ],
   "note": "Proved when messages can be sent and paid for and no ledger is full; without XCM fees the era stands still (witness)."
  },
  {
   "property": "C64",
   "status": "proved",
   "theorems": [
    "C64_settled_at_most_once",
    "C64_settled_is_final",
    "C64_settled_query_exact",
    "C64_never_paid_twice_refuted"
   ],
   "note": "The refuted theorem shows the limit: unregistering and re-registering a chain forgets what was settled, and the same transfer can be paid again."
  },
  {
   "property": "C65",
   "status": "proved",
   "theorems": [
    "C65_payout_needs_votes",
    "C65_percentage_of_relayers",
    "C65_percentage_from_genesis_refuted",
    "C65_current_relayers_refuted"
   ],
   "note": "Findings: before the first membership change one vote pays; votes of removed relayers keep counting."
  },
  {
   "property": "C66",
   "status": "proved",
   "theorems": [
    "C66_votes_by_relayers",
    "C66_no_second_vote",
    "C66_outsiders_cannot_vote"
   ],
   "note": ""
  },
  {
   "property": "C67",
   "status": "proved",
   "theorems": [
    "C67_payout_exact",
    "C67_other_votes_move_nothing"
   ],
   "note": ""
  },
  {
   "property": "C68",
   "status": "proved",
   "theorems": [
    "C68_threshold_follows_relayers",
    "C68_only_membership_changes_threshold"
   ],
   "note": ""
  },
  {
   "property": "C69",
   "status": "proved",
   "theorems": [
    "C69_counters_exact",
    "C69_in_cap",
    "C69_out_cap"
   ],
   "note": ""
  },
  {
   "property": "C70",
   "status": "proved",
   "theorems": [
    "C70_teleport_exact",
    "C70_nonces_without_gaps"
   ],
   "note": ""
  },
  {
   "property": "C71",
   "status": "proved",
   "theorems": [
    "C71_locked_tokens_backed"
   ],
   "note": ""
  },
  {
   "property": "C72",
   "status": "proved",
   "theorems": [
    "C72_disabled_means_disabled"
   ],
   "note": ""
  },
  {
   "property": "C73",
   "status": "proved",
   "theorems": [
    "C73_votes_on_live_proposals",
    "C73_block_drops_exactly_expired"
   ],
   "note": ""
  },
  {
   "property": "C74",
   "status": "proved",
   "theorems": [
    "C74_rejection_needs_votes",
    "C74_bogus_payload_blocks_genuine_refuted"
   ],
   "note": "Finding: rejecting a bogus payload settles the nonce, the genuine payload can no longer be paid."
  },
  {
   "property": "C75",
   "status": "proved",
   "theorems": [
    "C75_tokens_one_to_one",
    "C75_governance_only",
    "C75_setters_exact",
    "C75_register_exact",
    "C75_chains_exact"
   ],
   "note": ""
  },
  {
   "property": "C76",
   "status": "proved",
   "theorems": [
    "C76_bonus_exact",
    "C76_short_gift_account_blocks_payout_refuted"
   ],
   "note": "Finding: the availability check ignores the existential deposit, so a gift account with just the gift blocks the payout."
  },
  {
   "property": "C77",
   "status": "partial",
   "theorems": [
    "C77_votes_are_accepted_partial",
    "C77_nonce_zero_panics_refuted"
   ],
   "note": "A deciding vote is covered when the payout is possible and the gift account holds the existential deposit on top of the gift; nonce 0 panics (u64 underflow) once another nonce is settled, nonce 2^64-1 is excluded."
  },
  {
   "property": "C78",
   "status": "proved",
   "theorems": [
    "C78_swap_output_exact"
   ],
   "note": ""
  },
  {
   "property": "C79",
   "status": "proved",
   "theorems": [
    "C79_add_liquidity_exact",
    "C79_create_pool_exact"
   ],
   "note": ""
  },
  {
   "property": "C80",
   "status": "partial",
   "theorems": [
    "C80_swap_succeeds_partial",
    "C80_swap_same_block",
    "C80_swaps_can_be_blocked_refuted"
   ],
   "note": "Proved when the price accumulators have room (always within a block already updated); a long-lived or lopsided pool saturates them and every later swap fails (witness)."
  },
  {
   "property": "C81",
   "status": "partial",
   "theorems": [
    "C81_providers_can_leave_partial",
    "C81_providers_can_join",
    "C81_providers_can_leave_refuted"
   ],
   "note": "Leaving proved when the protocol fee is off or at most one half; with a fee above one half and no recorded reserves every removal and addition fails (witness)."
  },
  {
   "property": "C82",
   "status": "partial",
   "theorems": [
    "C82_protocol_fee_share_partial",
    "C82_protocol_fee_share_refuted"
   ],
   "note": "Proved when the fraction divides one (1/2, 1/5, ...); otherwise the integer division takes more (a 40% setting takes 50%, witness)."
  },
  {
   "property": "C83",
   "status": "proved",
   "theorems": [
    "C83_teleports_go_through"
   ],
   "note": ""
  },
  {
   "property": "C84",
   "status": "proved",
   "theorems": [
    "C84_contributions_backed"
   ],
   "note": ""
  },
  {
   "property": "C85",
   "status": "proved",
   "theorems": [
    "C85_counters_are_sums",
    "C85_entries"
   ],
   "note": ""
  },
  {
   "property": "C86",
   "status": "proved",
   "theorems": [
    "C86_derivatives_backed",
    "C86_sole_vault"
   ],
   "note": ""
  },
  {
   "property": "C87",
   "status": "proved",
   "theorems": [
    "C87_relay_supply"
   ],
   "note": ""
  },
  {
   "property": "C88",
   "status": "proved",
   "theorems": [
    "C88_contribute_exact",
    "C88_cap"
   ],
   "note": ""
  },
  {
   "property": "C89",
   "status": "proved",
   "theorems": [
    "C89_settlement_exact",
    "C89_settled_once",
    "C89_failed_answer_final_refuted"
   ],
   "note": "Finding: an answer can be replayed by the update origin after a failed answer (the request of a failed answer is not removed)."
  },
  {
   "property": "C90",
   "status": "proved",
   "theorems": [
    "C90_claim_exact",
    "C90_claim_once",
    "C90_streams_stay_consistent"
   ],
   "note": ""
  },
  {
   "property": "C91",
   "status": "proved",
   "theorems": [
    "C91_withdraw_exact"
   ],
   "note": ""
  },
  {
   "property": "C92",
   "status": "proved",
   "theorems": [
    "C92_redeem_exact"
   ],
   "note": ""
  },
  {
   "property": "C93",
   "status": "partial",
   "theorems": [
    "C93_contribute_possible",
    "C93_withdraw_possible",
    "C93_redeem_possible",
    "C93_claim_possible",
    "C93_claim_always_possible_refuted",
    "C93_unclaimed_after_lease_refuted",
    "C93_redeem_own_vault_refuted"
   ],
   "note": "Contribution, withdrawal (one vault per token), redemption (one vault per token) and claim without bonus are proved; refuted in general: a bonus smaller than its streaming seconds, a full stream library or a pallet account without native tokens blocks the claim; contributions not claimed before the end of the lease are stuck; vaults sharing a token can be drained by the other vault's holders."
  },
  {
   "property": "C94",
   "status": "partial",
   "theorems": [
    "C94_phase_changes",
    "C94_new_vaults_pending",
    "C94_answers_end",
    "C94_withdrawals_start",
    "C94_success_is_final_refuted"
   ],
   "note": "All transitions proved; \"success is final\" is refuted: a late answer to an earlier withdrawal request turns Succeeded into Failed."
  },
  {
   "property": "C95",
   "status": "proved",
   "theorems": [
    "C95_refund_exact",
    "C95_refund_for_exact",
    "C95_answers_accepted_refuted"
   ],
   "note": "Finding: refunding in-flight entries makes their later answers unacceptable for ever."
  },
  {
   "property": "C96",
   "status": "proved",
   "theorems": [
    "C96_dissolve_only_empty",
    "C96_old_answers_ignored_refuted"
   ],
   "note": "Finding: a vault re-created under the same key receives the answers meant for the dissolved one."
  },
  {
   "property": "C97",
   "status": "proved",
   "theorems": [
    "C97_governance_only",
    "C97_answers_and_proxy"
   ],
   "note": ""
  },
  {
   "property": "C98",
   "status": "proved",
   "theorems": [
    "C98_one_live_vault",
    "C98_lease_token_fixed",
    "C98_vault_token"
   ],
   "note": ""
  },
  {
   "property": "C99",
   "status": "proved",
   "theorems": [
    "C99_term_rate_bounded",
    "C99_term_rate_never_falls",
    "C99_term_rate_exact"
   ],
   "note": ""
  },
  {
   "property": "C100",
   "status": "proved",
   "theorems": [
    "C100_migrate_exact"
   ],
   "note": ""
  },
  {
   "property": "C101",
   "status": "proved",
   "theorems": [
    "C101_bonus_exact",
    "C101_overflowing_bonus_lost"
   ],
   "note": "Finding: a bonus that does not fit 128 bits is silently dropped (no bonus, claim succeeds)."
  },
  {
   "property": "C102",
   "status": "proved",
   "theorems": [
    "C102_nobody_loses"
   ],
   "note": ""
  },
  {
   "property": "C103",
   "status": "proved",
   "theorems": [
    "C103_reserve_factor",
    "C103_unstake_reserve_factor",
    "C103_commission",
    "C103_cap",
    "C103_setters_exact",
    "C103_reduce_exact"
   ],
   "note": ""
  },
  {
   "property": "C104",
   "status": "proved",
   "theorems": [
    "C104_create_accepted",
    "C104_create_exact",
    "C104_update_exact",
    "C104_setters_exact"
   ],
   "note": ""
  },
  {
   "property": "C105",
   "status": "partial",
   "theorems": [
    "C105_emergency_price_wins",
    "C105_reset_restores",
    "C105_origins",
    "C105_too_large_ignored_refuted",
    "C105_liquid_follows_emergency_refuted"
   ],
   "note": "Proved whenever the price per smallest unit fits 128 bits; refuted otherwise: such an emergency price is silently ignored and the oracle stays in force. Finding: an emergency price of the relay token does not reach the liquid token."
  },
  {
   "property": "C106",
   "status": "proved",
   "theorems": [
    "C106_oracle_price_exact",
    "C106_value_exact",
    "C106_auxiliary_price_exact",
    "C106_raw_price"
   ],
   "note": ""
  },
  {
   "property": "C107",
   "status": "proved",
   "theorems": [
    "C107_liquid_price_exact",
    "C107_liquid_price_never_falls",
    "C107_liquid_price_over_history"
   ],
   "note": ""
  },
  {
   "property": "C108",
   "status": "proved",
   "theorems": [
    "C108_lp_price_exact",
    "C108_no_panic",
    "C108_swap_never_lowers"
   ],
   "note": ""
  },
  {
   "property": "C109",
   "status": "partial",
   "theorems": [
    "C109_foreign_like_native",
    "C109_link_exact",
    "C109_depth_irrelevant",
    "C109_query_terminates_refuted"
   ],
   "note": "Proved when registrations are well founded; \"every query ends\" is refuted: a token registered for itself makes its price query recurse without end."
  },
  {
   "property": "C110",
   "status": "partial",
   "theorems": [
    "C110_filter_exact",
    "C110_toggle_exact",
    "C110_shutdown_can_be_undone",
    "C110_only_governance",
    "C110_disabled_pallet_stopped_refuted"
   ],
   "note": "Filter, toggles and authority proved; \"a switched-off call never runs\" is refuted: wrapped in an EVM-signed call it is dispatched without the filter."
  },
  {
   "property": "C111",
   "status": "proved",
   "theorems": [
    "C111_call_exact",
    "C111_call_accepted"
   ],
   "note": ""
  },
  {
   "property": "C112",
   "status": "partial",
   "theorems": [
    "C112_signature_needed",
    "C112_other_unsigned",
    "C112_unverified_any_bytes",
    "C112_only_signer_refuted"
   ],
   "note": "Proved for runtimes that verify (Parallel, Kerria); refuted for Heiko and Vanilla, which set VerifySignature = false: any 65 bytes act for any account."
  },
  {
   "property": "C113",
   "status": "partial",
   "theorems": [
    "C113_at_most_once",
    "C113_ordinary_at_most_once",
    "C113_replay_refuted"
   ],
   "note": "Proved within the lifetime of the account record; refuted across its removal: the signed payload has no expiry and can be replayed after the account was emptied and refilled."
  },
  {
   "property": "C114",
   "status": "partial",
   "theorems": [
    "C114_pool_exact",
    "C114_accepted_runs",
    "C114_fee_exact",
    "C114_unpayable_is_free",
    "C114_accepted_pays_refuted"
   ],
   "note": "Acceptance and execution proved; \"pays\" is refuted: a call whose signer cannot pay is accepted again and again and costs nothing."
  },
  {
   "property": "C115",
   "status": "proved",
   "theorems": [
    "C115_withdraw_exact",
    "C115_withdraw_possible"
   ],
   "note": ""
  },
  {
   "property": "C116",
   "status": "proved",
   "theorems": [
    "C116_supported_iff_priced",
    "C116_list_ascending",
    "C116_units_exact",
    "C116_remove_exact"
   ],
   "note": ""
  },
  {
   "property": "C117",
   "status": "partial",
   "theorems": [
    "C117_resolution_sound",
    "C117_one_to_one_partial",
    "C117_register_exact",
    "C117_update_exact",
    "C117_deregister_exact",
    "C117_one_to_one_refuted",
    "C117_update_to_same_refuted",
    "C117_deregister_touches_one_refuted"
   ],
   "note": "Soundness of resolution in every state, one-to-one when governance never reuses a taken type; refuted in general."
  },
  {
   "property": "C118",
   "status": "proved",
   "theorems": [
    "C118_transfer_exact",
    "C118_mint_exact",
    "C118_burn_exact"
   ],
   "note": ""
  },
  {
   "property": "C119",
   "status": "proved",
   "theorems": [
    "C119_lock_exact",
    "C119_lock_respected",
    "C119_other_assets_unlocked",
    "C119_unlocked_transfer"
   ],
   "note": ""
  },
  {
   "property": "C120",
   "status": "proved",
   "theorems": [
    "C120_solvent",
    "C120_reserves_fit"
   ],
   "note": ""
  },
  {
   "property": "C121",
   "status": "proved",
   "theorems": [
    "C121_swap_exact"
   ],
   "note": ""
  },
  {
   "property": "C122",
   "status": "partial",
   "theorems": [
    "C122_price_partial",
    "C122_large_pool_pays_reserve",
    "C122_price_refuted",
    "C122_scarce_asset_is_cheap_refuted",
    "C122_round_trip_refuted"
   ],
   "note": "The output is, within 4 units, the one that keeps the invariant when the input is added to the reserve of the OUTPUT asset (the code swaps the two reserves); refuted as a price, and for large pools every trade pays out the whole reserve."
  },
  {
   "property": "C123",
   "status": "partial",
   "theorems": [
    "C123_value_partial",
    "C123_balanced",
    "C123_large_pool_refuted"
   ],
   "note": "Accurate within 5 units when the powers of D fit the u128 divisions; refuted for larger pools (D = 0)."
  },
  {
   "property": "C124",
   "status": "partial",
   "theorems": [
    "C124_add_exact",
    "C124_create_exact",
    "C124_fair_share_refuted"
   ],
   "note": "The exact amounts and mint formula; refuted that the formula is a fair share (a deposit is credited twice)."
  },
  {
   "property": "C125",
   "status": "proved",
   "theorems": [
    "C125_remove_exact",
    "C125_protocol_fee_exact"
   ],
   "note": ""
  },
  {
   "property": "C126",
   "status": "partial",
   "theorems": [
    "C126_providers_can_leave_partial",
    "C126_providers_trapped_refuted",
    "C126_large_pool_closed_refuted"
   ],
   "note": "Whenever D can be computed; refuted in general."
  },
  {
   "property": "C127",
   "status": "proved",
   "theorems": [
    "C127_create_gated",
    "C127_lp_tokens_unique",
    "C127_pools_persist"
   ],
   "note": ""
  },
  {
   "property": "C128",
   "status": "partial",
   "theorems": [
    "C128_amounts_in_formula",
    "C128_amounts_in_refuted"
   ],
   "note": "The formula used; refuted that it suffices (constant-product formula on a StableSwap pool)."
  },
  {
   "property": "C129",
   "status": "proved",
   "theorems": [
    "C129_transfer_exact",
    "C129_transfer_live"
   ],
   "note": ""
  },
  {
   "property": "C130",
   "status": "proved",
   "theorems": [
    "C130_transfer_from_exact",
    "C130_transfer_from_live",
    "C130_authority",
    "C130_allowance_history"
   ],
   "note": ""
  },
  {
   "property": "C131",
   "status": "proved",
   "theorems": [
    "C131_approve_exact",
    "C131_approve_live"
   ],
   "note": ""
  },
  {
   "property": "C132",
   "status": "proved",
   "theorems": [
    "C132_permit_exact",
    "C132_permit_live",
    "C132_nonces_never_fall",
    "C132_permit_once"
   ],
   "note": "keccak and ECDSA recovery are ideal (one_message)."
  },
  {
   "property": "C133",
   "status": "proved",
   "theorems": [
    "C133_no_delegatecall"
   ],
   "note": ""
  },
  {
   "property": "C134",
   "status": "partial",
   "theorems": [
    "C134_assets_not_payable",
    "C134_assets_static_partial",
    "C134_native_value_stuck",
    "C134_native_payable_refuted",
    "C134_native_static_refuted",
    "C134_permit_static_refuted"
   ],
   "note": "Assets except permit in static calls; refuted for the native token (the check is dropped), whose stray value is stuck forever."
  },
  {
   "property": "C135",
   "status": "partial",
   "theorems": [
    "C135_asset_address",
    "C135_one_token",
    "C135_one_address_refuted",
    "C135_aliases"
   ],
   "note": "Refuted: an asset answers at 2^96 addresses."
  },
  {
   "property": "C136",
   "status": "proved",
   "theorems": [
    "C136_total_supply",
    "C136_balance_of",
    "C136_allowance",
    "C136_nonces"
   ],
   "note": "balanceOf of the native token is the unlocked balance."
  },
  {
   "property": "C137",
   "status": "proved",
   "theorems": [
    "C137_deposit_exact",
    "C137_withdraw_exact"
   ],
   "note": ""
  },
  {
   "property": "C138",
   "status": "partial",
   "theorems": [
    "C138_supply_authority",
    "C138_balances_add_up",
    "C138_burn_exact_refuted"
   ],
   "note": "Refuted: a burn above the balance burns less and still returns true."
  },
  {
   "property": "C139",
   "status": "partial",
   "theorems": [
    "C139_two_names_one_asset",
    "C139_leaves_under_its_name",
    "C139_no_confusion",
    "C139_round_trip_partial",
    "C139_round_trip_refuted"
   ],
   "note": "The round trip is proved for assets registered under an outside name that no other asset has, refuted for assets registered under an inside name."
  },
  {
   "property": "C140",
   "status": "proved",
   "theorems": [
    "C140_charge_exact",
    "C140_only_too_expensive",
    "C140_needs_concrete_asset"
   ],
   "note": ""
  },
  {
   "property": "C141",
   "status": "partial",
   "theorems": [
    "C141_no_creation_partial",
    "C141_no_creation_refuted",
    "C141_transfer_exact"
   ],
   "note": "Proved when the first purchase covers the message and is not free; refuted without the second condition. The executor is any sequence of operations."
  },
  {
   "property": "C142",
   "status": "partial",
   "theorems": [
    "C142_refund_exact_partial",
    "C142_refund_bounded_refuted",
    "C142_second_asset_accounted_refuted",
    "C142_refund_never_panics_refuted"
   ],
   "note": "Proved for refunds within the weight bought once; refuted in general (weight counted twice, a second asset forgotten, overflow)."
  },
  {
   "property": "C143",
   "status": "partial",
   "theorems": [
    "C143_deposit_exact",
    "C143_gift_made",
    "C143_gift_amount",
    "C143_gift_once_refuted"
   ],
   "note": "All but \"once\", which is refuted."
  },
  {
   "property": "C144",
   "status": "proved",
   "theorems": [
    "C144_withdraw_exact",
    "C144_transfer_exact",
    "C144_fallback_never_credits",
    "C144_unknown_rejected"
   ],
   "note": ""
  },
  {
   "property": "C145",
   "status": "proved",
   "theorems": [
    "C145_request_exact",
    "C145_request_succeeds",
    "C145_no_fee_no_message"
   ],
   "note": ""
  },
  {
   "property": "C146",
   "status": "proved",
   "theorems": [
    "C146_queries_unique",
    "C146_query_fixed",
    "C146_query_new",
    "C146_fees_backed"
   ],
   "note": ""
  },
  {
   "property": "C147",
   "status": "partial",
   "theorems": [
    "C147_answer_is_always_success",
    "C147_success_means_done_refuted"
   ],
   "note": "Refuted: the answer is always \"no error\" (what is proved), whether the calls succeeded or not. The relay executor is modelled by the documented XCM semantics."
  },
  {
   "property": "C148",
   "status": "proved",
   "theorems": [
    "C148_answer_after_all_calls",
    "C148_calls_in_order",
    "C148_fee_too_low",
    "C148_fee_conserved"
   ],
   "note": ""
  },
  {
   "property": "C149",
   "status": "proved",
   "theorems": [
    "C149_encoding_injective",
    "C149_encoding_prefix_free",
    "C149_networks_differ"
   ],
   "note": ""
  },
  {
   "property": "C150",
   "status": "proved",
   "theorems": [
    "C150_update_exact",
    "C150_update_effect",
    "C150_fee_never_zero",
    "C150_add_fees_exact"
   ],
   "note": ""
  },
  {
   "property": "C151",
   "status": "proved",
   "theorems": [
    "C151_delegation_does_not_grow",
    "C151_no_token_calls",
    "C151_undelegated"
   ],
   "note": "pallet_proxy, pallet_utility, pallet_multisig and pallet_collective (dependencies) by their documented behaviour; the type filter and call lists are the code of the runtime."
  },
  {
   "property": "C152",
   "status": "proved",
   "theorems": [
    "C152_types_disjoint",
    "C152_delegated_call_exact",
    "C152_delegate_can_act"
   ],
   "note": ""
  },
  {
   "property": "C153",
   "status": "partial",
   "theorems": [
    "C153_filter_everywhere",
    "C153_never_signed",
    "C153_shutdown_everywhere",
    "C153_evm_signed_filtered_refuted"
   ],
   "note": "Holds for all signed and council calls; refuted for the inner call of evm-signatures, which is dispatched without the filter."
  },
  {
   "property": "C154",
   "status": "proved",
   "theorems": [
    "C154_add_exact",
    "C154_remove_exact",
    "C154_always_revocable",
    "C154_former_delegate_refused"
   ],
   "note": ""
  },
  {
   "property": "C155",
   "status": "proved",
   "theorems": [
    "C155_announced_only",
    "C155_notice_period",
    "C155_rejected",
    "C155_ripe_usable"
   ],
   "note": ""
  },
  {
   "property": "C156",
   "status": "partial",
   "theorems": [
    "C151_no_token_calls",
    "C156_limited_delegate_gets_nothing_refuted"
   ],
   "note": "Refuted for the streaming type (a delegate can open a stream to itself); proved: no limited delegate runs a token call."
  },
  {
   "property": "C157",
   "status": "partial",
   "theorems": [
    "C157_frozen_forever",
    "C157_collateral_blocks_account",
    "C157_refuted"
   ],
   "note": "Refuted: once the vouchers of a market are backed one to one (a donation of 49 units suffices in a new market) nothing can be done in it for ever, and an account with such vouchers as collateral cannot be liquidated; C158 and C159 are what holds otherwise."
  },
  {
   "property": "C158",
   "status": "partial",
   "theorems": [
    "C158_repay_partial",
    "C158_refuted"
   ],
   "note": "Under headroom (interest computable: the exchange rate stays below 1 and the numbers fit) and a usable rate model; refuted without it: a gift of 490 units to the pallet makes a debt unpayable for ever."
  },
  {
   "property": "C159",
   "status": "partial",
   "theorems": [
    "C159_withdraw_partial",
    "C159_debtless_withdraw_partial",
    "C159_missing_price_blocks_everyone",
    "C159_refuted"
   ],
   "note": "For vouchers that are not collateral, when interest and rewards can be computed; refuted for collateral: one active market without a price blocks every account. Also proved for collateral of an account without debts, when all active markets are priced."
  },
  {
   "property": "C160",
   "status": "proved",
   "theorems": [
    "C160_claim_exact",
    "C160_claim_for_market_exact",
    "C160_claim_goes_through"
   ],
   "note": ""
  },
  {
   "property": "C161",
   "status": "partial",
   "theorems": [
    "C161_supplier_rewards_partial",
    "C161_refuted"
   ],
   "note": "Rewards for suppliers, over all histories without voucher transfers (refuted with them, C34); refuted for rewards for borrowers (three times the emission is paid)."
  },
  {
   "property": "C162",
   "status": "partial",
   "theorems": [
    "C162_others_keep_rewards_partial",
    "C162_time_keeps_rewards_partial",
    "C162_refuted"
   ],
   "note": "Rewards for suppliers, without voucher transfers (claims: C160); refuted for borrowers, who lose rewards when they are liquidated."
  },
  {
   "property": "C163",
   "status": "proved",
   "theorems": [
    "C163_backed_across_upgrades",
    "C163_books_across_upgrades",
    "C163_entries_across_upgrades"
   ],
   "note": "For upgrades that fit the state (the pre-upgrade checks of the authors and free keys; otherwise C167)."
  },
  {
   "property": "C164",
   "status": "proved",
   "theorems": [
    "C164_other_versions_untouched",
    "C164_money_untouched",
    "C164_vaults_exact",
    "C164_wired_exact"
   ],
   "note": ""
  },
  {
   "property": "C165",
   "status": "partial",
   "theorems": [
    "C165_once_partial",
    "C165_wired_upgrade_once_refuted"
   ],
   "note": "Upgrades v1 to v3; refuted for v4, the one wired into the runtime, which does not write the storage version."
  },
  {
   "property": "C166",
   "status": "partial",
   "theorems": [
    "C166_tokens_covered_partial",
    "C166_no_shortage",
    "C166_wired_upgrade_refuted"
   ],
   "note": "Upgrades v1 to v3; refuted for v4, which lowers the amount a vault accounts for below the tokens issued."
  },
  {
   "property": "C167",
   "status": "partial",
   "theorems": [
    "C167_old_vaults_kept_partial",
    "C167_overwritten_refuted",
    "C167_shared_books_refuted"
   ],
   "note": "For upgrades that fit the state; refuted otherwise: the upgrades check neither that the key is free nor that the counter does not go backwards."
  },
  {
   "property": "C168",
   "status": "proved",
   "theorems": [
    "C168_upgrade_exact",
    "C168_threshold_bounds",
    "C168_nobody_becomes_liquidatable",
    "C168_runs_once"
   ],
   "note": ""
  },
  {
   "property": "C169",
   "status": "partial",
   "theorems": [
    "C169_market_adjustable_partial",
    "C169_rewards_lost_refuted",
    "C169_gap_bears_no_interest_refuted",
    "C169_stuck_market_refuted"
   ],
   "note": "Markets below ten elevenths collateral factor stay adjustable; the rest is refuted."
  },
  {
   "property": "C170",
   "status": "proved",
   "theorems": [
    "C170_names_kept",
    "C170_nothing_new",
    "C170_fails_only_without_conversion"
   ],
   "note": ""
  },
  {
   "property": "C171",
   "status": "partial",
   "theorems": [
    "C171_fee_assets_kept_partial",
    "C171_refuted"
   ],
   "note": "For conversions that keep the order of locations; refuted for the orders of general keys in XCM 2 and 3."
  },
  {
   "property": "C172",
   "status": "partial",
   "theorems": [
    "C172_exact_input_goes_through_partial",
    "C172_same_block_fits",
    "C172_exact_output_one_hop_partial",
    "C172_exact_output_refuted"
   ],
   "note": "Exact input for routes of any length; exact output for one hop and traders who hold strictly more than the input; refuted for a trader who holds exactly the input. Longer exact-output routes can fail or leave change (C13)."
  },
  {
   "property": "C173",
   "status": "partial",
   "theorems": [
    "C173_transfer_exact",
    "C173_free_vouchers_go_through",
    "C173_refuted"
   ],
   "note": "Exact for transfers to others and always possible for free vouchers; refuted for oneself: sending all vouchers to oneself switches the collateral off."
  },
  {
   "property": "C174",
   "status": "partial",
   "theorems": [
    "C174_add_exact",
    "C174_reduce_exact",
    "C174_reduce_goes_through",
    "C174_incentive_partial",
    "C174_stale_rate_refuted"
   ],
   "note": "The liquidation reserve is redeemed at the rate without the interest due (no accrual), so more vouchers are burnt than at the current rate."
  },
  {
   "property": "C175",
   "status": "partial",
   "theorems": [
    "C175_liquidation_goes_through_partial",
    "C175_one_price_blocks_all",
    "C175_refuted"
   ],
   "note": "Proved when interest accrues, all active markets are priced, exchange rates are valid and the numbers fit. Refuted without those: a missing price of the liquidation-free currency blocks every liquidation, even when nobody uses that currency."
  },
  {
   "property": "C176",
   "status": "partial",
   "theorems": [
    "C176_supply_goes_through_partial",
    "C176_refuted"
   ],
   "note": "Proved when interest accrues, the tokens of the market stay worth less than one per voucher and the numbers fit. Refuted without that: tokens sent to the pallet close a small market for ever."
  },
  {
   "property": "C177",
   "status": "partial",
   "theorems": [
    "C177_borrow_goes_through_partial",
    "C177_refuted"
   ],
   "note": "Proved when interest accrues, all active markets are priced, exchange rates are valid and the numbers fit. Refuted without that: an active market without a price, used by nobody, blocks all loans."
  },
  {
   "property": "C178",
   "status": "partial",
   "theorems": [
    "C178_exact",
    "C178_on_goes_through",
    "C178_off_goes_through_partial",
    "C178_stale_refuted"
   ],
   "note": "Exact, and switching on always goes through; switching off when all active markets are priced. Refuted for the interest due: it is not charged first, so needed collateral can be switched off."
  }
 ]
}