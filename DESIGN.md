# Formal model of parallel-finance/parallel in Rocq (Coq 8.16.1)

## Technique
Each pallet is modelled as small, total, computable Gallina functions over `Z`, records, lists and
std++ `gmap`. A call is a function `config -> env -> state -> args -> res state` with
`res = Ok _ | Err msg | Panic`. All modelled extrinsics are `#[transactional]` (or run inside FRAME's storage
layer), so after `Err` or `Panic` the state is the state before. A history is a list of steps; reachability is an
inductive closure over *all* calls, block numbers and timestamps, oracle prices, relay-chain responses and outside token
movements. There is no bound on the number of users, pools, markets, streams, calls or blocks.

Arithmetic: `Balance` = u128, `FixedU128` (inner / 10^18), `Permill` (parts / 10^6) are `Z` with explicit
range checks: `checked_*` returns `None` outside `[0, 2^128)`, `saturating_*` clamps, a raw `+`/`-`/`*` that
overflows is `Panic` (the workspace builds release with `overflow-checks = true`), and so is a division by zero or an
`unwrap` of `None`.

The configuration of a runtime (constants, origins, accounts) is an explicit record argument of every function, and the
theorems quantify over it. Token transfers can fail for reasons outside the model (frozen accounts, existential deposits,
limits): every theorem quantifies over a `policy` that may refuse any transfer, mint or burn.

## Files (rocq/theories)
| file | content |
|---|---|
| Base.v | result monad, u128 / FixedU128 / Permill arithmetic with sp-arithmetic's rounding |
| MapSum.v | sums over finite maps |
| Ledger.v | multi-asset ledger (pallet-assets / pallet-balances behind currency-adapter), balances, issuance, refusal policy |
| `<P>Model.v` | function-by-function model of the pallet with source citations; nothing but definitions |
| `<P>Spec.v` | vocabulary of the theorem statements: configuration conditions, reachability, sums, who may do what |
| `<P>Proofs*.v`, AmmInv, LsDist | lemmas |
| `<P>Ex.v` | concrete configurations and reachable histories |
| `<P>Props*.v` | only the property theorems, `Print Assumptions` after each, and `Example`s that meet their hypotheses |

`<P>` is Amm, Router, Stream, Farm, Loans, Ls (liquid staking) and further pallets as listed below; Admin holds
the cross-pallet property C48. Theorems named `*_partial` prove less than the English property, `*_refuted` prove that the
code violates it, by a reachable state computed inside Coq; MANIFEST.json says what is missing.

## What is modelled
| pallet | modelled | not modelled |
|---|---|---|
| amm | add/remove_liquidity, create_pool, fee and receiver calls, swap, quotes, price accumulators, protocol fee mint | events, weights, benchmarking |
| router | exact-input and exact-output trades, all-routes search, best route | events, weights |
| streaming | create, cancel, withdraw, set_minimum_deposit, libraries, StreamCreated event | other events, weights |
| farming | create, set_pool_status, cool down, reset_pool_unlock_height, deposit, withdraw, redeem, claim, dispatch_reward | events, weights |
| loans | markets, rate models, accrual, mint/redeem/borrow/repay/collateral/liquidation, reserves, incentive reserves, ptoken transfer, reward speed/index/claim, all governance calls | events, weights, RPC (the migration is in the Up model) |
| liquid-staking | every extrinsic, on_initialize/on_finalize, matching pool, staking ledgers, distribution strategies, notifications, instant unstake through lending | XCM encoding (a request is its content and query id), Merkle proof verification (an oracle that accepts or rejects), validation-data format, events, migrations |
| bridge | every extrinsic, on_initialize, nonce registry, proposals and votes, caps, bonus, relayer-set changes | events other than those logged in the model, weights, migrations |
| crowdloans | every extrinsic, request/answer handling, child-trie books (as maps), phases, bonus streams (the streaming model is embedded), storage upgrades v1-v4, refund/migration key limits (any enumeration order of the trie is the model's map order), term rate | events, weights, XCM encoding (a send may fail: `ce_send`), redeem_and_lend's lending leg is a transfer to the lending account |
| prices | set_price, reset_price, set_foreign_asset, get_price, get_special_asset_price for staking, vault and LP tokens, normalisation | the oracle pallet itself (its answers are an argument), the oracle-data provider used off chain, fixed-point answers of the yield curve (an argument `pe_yield`) |
| emergency-shutdown, evm-signatures, runtime call filter | toggles, contains, BaseCallFilter (white list and allowed list as predicates), call, withdraw, valid_signature, validate_unsigned, nested dispatch; ordinary signed, unsigned and governance extrinsics | the cryptography (a predicate `gc_sig`), weights, pool priorities, the effect of the other pallets (an arbitrary function on ledger, account records and their storage) |
| asset-registry, currency-adapter | every extrinsic and query; `binary_search` of the Rust library; native locks | events, weights, XCM encodings; pallet-balances and pallet-assets are ledgers with an arbitrary refusal policy |
| stableswap | lib.rs and helpers.rs: create_pool, add_liquidity, remove_liquidity, swap, quotes in both directions, compute_d, compute_base, protocol fee, oracle update | events, the unused functions get_amount_out_1, do_get_delta, get_exchange_value, do_get_alternative_var |
| precompiles balances-erc20, assets-erc20 (with eip2612), precompile-utils, runtime precompile set | calldata decoding, selectors, modifiers, every function, permits, DELEGATECALL guard, address/asset mapping, the EVM's value transfer | gas, string encodings of name/symbol, the other precompiles (stateless); keccak and ECDSA are ideal; pallet-balances and pallet-assets by their documented behaviour with arbitrary refusals |
| XCM adapter (pallets/traits/src/xcm.rs), runtime XCM configuration | location/asset conversion, FirstAssetTrader, XcmFeesToAccount, MultiCurrencyAdapter with gifts, the transactor tuple | the XCM executor (arbitrary sequences of its operations), barriers, LocationToAccountId (an argument), non-fungible assets |
| xcm-helper, ump.rs | every request, fee configuration, fee payment, SCALE encoding of the calls sent, query numbers | pallet_xcm's handling of responses and timeouts; the relay chain is an arbitrary state machine that executes the six instructions by their documented semantics |
| runtime ProxyType filter, WhiteListFilter, BaseCallFilter (concrete lists) | every limited type, is_superset, both lists, nested dispatch with origin filters | deposits, the book-keeping of multisig approvals (arbitrary), deferred governance calls, XCM Transact; pallet_proxy, pallet_utility, pallet_multisig, pallet_collective by their documented behaviour (substrate polkadot-v0.9.38) |
| storage upgrades | crowdloans v1-v4, loans v3 (old market encoding as a record, reward speeds, old-named items), asset-registry XCM 2 to 3 (conversion as a partial function) | the liquid-staking v3 upgrade (only writes the version), weights, try-runtime checks, the database encoding itself; only crowdloans v4 is wired into a runtime |
| not modelled at all | | node, RPC, benchmarking, weights, support crates, genesis |

Simplifications are stated in a comment beside each definition. The main ones: block/transaction fees are not charged;
account existence and existential deposits appear only through the refusal policy; storage maps iterate in map order where
the order does not matter; the lending markets' cash is the pallet account's balance without locks.

## Properties
For each property: the plan that was followed, and the theorems. English statements: `properties.jsonl`.

| id | title | status | how it is proved | theorems |
|---|---|---|---|---|
| C01 | AMM swap never decreases the constant product | proved | nonlinear integer arithmetic on the quote functions, floor/ceil bounds | `C01_swap_preserves_product` |
| C02 | AMM round trips cannot profit | proved | nonlinear integer arithmetic on the quote functions, floor/ceil bounds | `C02_round_trip_no_profit` `C02_swap_sequences_no_profit` |
| C03 | LP shares never lose value | proved | invariant `inv` by induction over `amm_reachable` (all calls, all outside transfers), per-call effect lemmas | `C03_lp_share_value_never_decreases` |
| C04 | AMM pallet account is always solvent | proved | invariant `inv` by induction over `amm_reachable` (all calls, all outside transfers), per-call effect lemmas | `C04_amm_solvent` |
| C05 | add_liquidity respects the caller's bounds | proved | exact effect of the call (reserves, balances, issuance) from the ledger lemmas | `C05_add_liquidity_bounds` |
| C06 | remove_liquidity pays at most the pro-rata share | proved | exact effect of the call (reserves, balances, issuance) from the ledger lemmas | `C06_remove_liquidity_pro_rata` |
| C07 | A created pool is never drained | proved | invariant `inv` by induction over `amm_reachable` (all calls, all outside transfers), per-call effect lemmas | `C07_pool_never_drained` `C07_pools_are_never_removed` |
| C08 | One canonical pool per pair | proved | invariant `inv` by induction over `amm_reachable` (all calls, all outside transfers), per-call effect lemmas | `C08_pair_order_irrelevant` `C08_create_pool_only_once_with_fresh_lp` `C08_identical_assets_rejected` `C08_lp_tokens_unique` |
| C09 | Exact-output quote is sufficient | partial | nonlinear integer arithmetic on the quote functions, floor/ceil bounds | `C09_exact_output_quote_partial` `C09_exact_output_quote_plus_one_partial` `C09_exact_output_quote_sufficient_refuted` |
| C10 | TWAP accumulator records the price in force | partial | accumulator algebra; the failing half by a reachable witness | `C10_cumulative_price_partial` `C10_twap_records_pre_trade_price_refuted` |
| C11 | Protocol fee mint is bounded by the growth | partial | arithmetic on the fee formula | `C11_protocol_fee_at_most_growth_partial` `C11_reserves_recorded_when_fee_on` `C11_protocol_fee_at_most_growth_refuted` |
| C12 | Exact-input routing honours the minimum and its quote | proved | induction over the route; the executed amounts equal the quoted ones because a route repeats no asset | `C12_exact_input_honours_minimum_and_quote` `C12_routed_trades_preserve_pools` `C12_exact_output_trades_preserve_pools` |
| C13 | Exact-output routing honours the maximum and delivers the output | partial | induction over the route; the executed amounts equal the quoted ones because a route repeats no asset | `C13_exact_output_partial` `C13_exact_output_delivers_refuted` `C13_only_first_token_debited_refuted` |
| C14 | Best route is optimal among all simple routes | proved | completeness of the breadth-first enumeration of simple routes, then maximality of the fold | `C14_all_routes_are_exactly_the_simple_routes` `C14_best_route_optimal` `C14_best_route_found` `C14_best_route_executable_refuted` |
| C15 | Streaming pallet is solvent | proved | invariant: sum over streams of remaining balances, by induction over `str_reachable`; exact effects | `C15_streaming_solvent` |
| C16 | A recipient is never paid ahead of schedule | proved | exact effect of withdraw/create; list invariants (sorted, bounded) | `C16_never_paid_ahead_of_schedule` |
| C17 | Streams conserve the deposit | proved | invariant: sum over streams of remaining balances, by induction over `str_reachable`; exact effects | `C17_deposit_conserved` `C17_every_stream_was_created` |
| C18 | Cancellation splits fairly | proved | invariant: sum over streams of remaining balances, by induction over `str_reachable`; exact effects | `C18_cancel_splits_fairly` |
| C19 | Only the recipient can withdraw | proved | exact effect of withdraw/create; list invariants (sorted, bounded) | `C19_withdraw_only_recipient` |
| C20 | Stream libraries are bounded, sorted and only finished streams are pruned | proved | exact effect of withdraw/create; list invariants (sorted, bounded) | `C20_stream_lists` `C20_unfinished_stream_kept` |
| C21 | Farming pool total equals the sum of positions | proved | invariants over `farm_reachable` (sum of positions, lock sums, reward budget) | `C21_pool_total_is_sum_of_positions` |
| C22 | Farming principal is always backed | proved | invariants over `farm_reachable` (sum of positions, lock sums, reward budget) | `C22_principal_backed` `C22_user_principal_backed` |
| C23 | Cooldown is enforced | proved | exact effect of the calls | `C23_withdraw_effect` `C23_redeem_effect` |
| C24 | Farming rewards are never over-distributed | proved | invariants over `farm_reachable` (sum of positions, lock sums, reward budget) | `C24_rewards_never_over_distributed` |
| C25 | Reward accumulator is monotone and per-user reward is never lost | proved | invariants over `farm_reachable` (sum of positions, lock sums, reward budget) | `C25_accumulator_monotone` `C25_reward_never_lost` `C25_claim_pays_exactly` |
| C26 | Interest rate models are bounded and monotone | proved | monotonicity of the piecewise-linear / polynomial rate in utilisation, checked-arithmetic ranges | `C26_jump_model` `C26_curve_model` `C26_supply_rate_at_most_borrow_rate` |
| C27 | An accepted interest model never bricks a market | partial | monotonicity of the piecewise-linear / polynomial rate in utilisation, checked-arithmetic ranges | `C27_rate_defined_partial` `C27_refuted` `C27_refuted_market_bricked` |
| C28 | Interest accrual is monotone | proved | invariant `linv` over `loans_reachable`; the exchange-rate inequality is proved per call with its rounding | `C28_accrual` `C28_accrual_amounts` `C28_debts_never_shrink_by_themselves` |
| C29 | Deposits and redemptions never dilute suppliers | proved | invariant `linv` over `loans_reachable`; the exchange-rate inequality is proved per call with its rounding | `C29_exchange_rate_never_falls` `C29_first_deposit_rate` |
| C30 | Voucher supply equals voucher holdings | proved | invariant `linv` over `loans_reachable`; the exchange-rate inequality is proved per call with its rounding | `C30_supply_is_sum_of_vouchers` |
| C31 | Borrowing and redeeming keep the account solvent | partial | exact effect lemmas of borrow / redeem / transfer / liquidate / repay / mint | `C31_borrow_partial` `C31_borrow_liquidation_free_asset_partial` `C31_redeem_partial` `C31_disable_collateral` `C31_transfer_partial` `C31_refuted_borrow` `C31_refuted_transfer` `C31_refuted_redeem_stale_interest` |
| C32 | Liquidation is only possible and only up to the close factor on unhealthy accounts | proved | exact effect lemmas of borrow / redeem / transfer / liquidate / repay / mint | `C32_liquidation` |
| C33 | Reserves and caps bound borrowing and supplying | partial | exact effect lemmas of borrow / redeem / transfer / liquidate / repay / mint | `C33_borrow_cap_and_reserves` `C33_supply_cap_partial` `C33_refuted_supply_cap` |
| C34 | Supplier rewards are not double counted by moving vouchers | partial | two-account reward algebra + witness | `C34_transfer_rewards_partial` `C34_refuted` |
| C35 | Governance market parameters keep every liquidation executable | partial | no-panic lemmas for every call under the stated parameter ranges + witnesses | `C35_no_panic_partial` `C35_liquidation_no_panic_partial` `C35_refuted` `C35_refuted_price_overflow` |
| C36 | Repaying reduces exactly the debt repaid | proved | exact effect lemmas of borrow / redeem / transfer / liquidate / repay / mint | `C36_repay` `C36_repay_all` |
| C37 | Liquid-staking exchange rate never decreases | proved | invariant `lsi` over `ls_reachable` through an effect relation (`leff`, LsProofs4-7) | `C37_rate_never_falls` `C37_rate_moves_with_the_era` `C37_round_trip` |
| C38 | Liquid-staking matching conserves flow | proved | arithmetic on the matching pool | `C38_matching` `C38_reserved_at_most_total` `C38_confirming_stake` `C38_confirming_unstake` |
| C39 | Unstaking queue pays exactly the due chunks | proved | exact effect lemmas (LsProofs2, LsProofs10) | `C39_unstake_promise` `C39_claim` `C39_claim_for_lending` `C39_queue_is_private` |
| C40 | Local staking ledger stays consistent | proved | chunk-list induction + reachability invariant | `C40_ledgers_consistent` `C40_bond_extra` `C40_unbond` `C40_rebond` `C40_consolidate` |
| C41 | Stake distribution respects amount and caps | partial | induction over the sorted account list for each strategy | `C41_bond_partial` `C41_maxmin_bond_exact` `C41_unbond` `C41_rebond` `C41_minimum_bond_refuted` |
| C42 | Nothing blocks a due withdrawal or an allowed cancellation | proved | every check of the call is discharged from the invariant (progress lemma) | `C42_withdraw_never_blocked` `C42_cancel_never_blocked` |
| C43 | A created stream is exactly what was asked for | proved | exact effect of withdraw/create; list invariants (sorted, bounded) | `C43_create_effect` |
| C44 | The creation event describes the stream | partial | event log in the model; witness for the wrong field | `C44_creation_event_partial` `C44_event_reports_cancellable_refuted` |
| C45 | Farming withdrawals and claims are never blocked | partial | progress lemmas + overflow witness | `C45_redeem_never_blocked` `C45_withdraw_not_blocked_partial` `C45_claim_not_blocked_partial` `C45_withdraw_never_blocked_refuted` |
| C46 | Dispatched rewards reach the stakers | partial | exact effect of the calls | `C46_dispatch_effect_partial` `C46_everything_dispatched_is_claimable_refuted` |
| C47 | Farming positions are private | proved | invariants over `farm_reachable` (sum of positions, lock sums, reward budget) | `C47_position_only_changed_by_owner` `C47_deposit_effect` |
| C48 | Parameters change only through the configured origins | proved | frame lemmas for every call of every pallet | `C48_amm` `C48_amm_pools` `C48_farming` `C48_streaming` `C48_lending_parameters` `C48_lending_origins` `C48_lending_reserves` `C48_liquid_staking_origins` |
| C49 | Lending reserves and vouchers are always covered | proved | invariant `linv` over `loans_reachable`; the exchange-rate inequality is proved per call with its rounding | `C49_reserves_covered` `C49_vouchers_covered` |
| C50 | Lending positions are private | proved | frame lemmas for every call | `C50_debts` `C50_vouchers` |
| C51 | Supplying and redeeming are exact and a round trip never gains | proved | exact effect lemmas of borrow / redeem / transfer / liquidate / repay / mint | `C51_mint` `C51_redeem` `C51_round_trip` |
| C52 | Staking is exact | proved | exact effect lemmas (LsProofs2, LsProofs10) | `C52_stake` |
| C53 | Unstaking is exact | proved | exact effect lemmas (LsProofs2, LsProofs10) | `C53_unstake` `C53_unstake_instant` |
| C54 | Fast unstaking is exact | proved | exact effect lemmas (LsProofs2, LsProofs10) | `C54_request` `C54_match` `C54_cancel` |
| C55 | The liquid-staking pallet holds its reserves and pending stake | proved | invariant `lsi` over `ls_reachable` through an effect relation (`leff`, LsProofs4-7) | `C55_pallet_solvent` |
| C56 | Everything promised to unstakers is covered | proved | potential `slack` never negative along `leff` steps | `C56_promises_covered` |
| C57 | Liquid tokens are backed by stake | partial | invariant `lsi` over `ls_reachable` through an effect relation (`leff`, LsProofs4-7) | `C57_liquid_tokens_backed_partial` `C57_refuted` |
| C58 | Reserved amounts are exactly the pending requests | proved | invariant `lsi` over `ls_reachable` through an effect relation (`leff`, LsProofs4-7) | `C58_reserved_is_requested` |
| C59 | A failed relay-chain request is undone | partial | notification frame; request persistence along all histories; witness | `C59_failed_response_harmless_partial` `C59_only_success_closes` `C59_refuted` |
| C60 | Liquid staking keeps lending intact | proved | every effect of liquid staking on the lending state is a path of lending steps | `C60_lending_intact` |
| C61 | Unstake reserves are held | partial | witness | `C61_unstake_reserves_held_refuted` |
| C62 | A relay-chain response never panics | partial | no-panic lemma + witness | `C62_response_no_panic_partial` `C62_refuted` |
| C63 | Eras advance | partial | progress of the whole block hook (distribution amounts fit, fees suffice) + witness | `C63_block_hook_succeeds_partial` `C63_refuted` |
| C64 | Bridge settles a transfer at most once | proved | interval-list registry refines a set of nonces (BridgeProofs); invariant `br_inv` over `br_reachable`; witness for the limit | `C64_settled_at_most_once` `C64_settled_is_final` `C64_settled_query_exact` `C64_never_paid_twice_refuted` |
| C65 | Bridge payouts need the vote threshold | proved | inversion of the vote call + invariant that stored votes are logged votes (BridgeProofs3-4); witnesses | `C65_payout_needs_votes` `C65_percentage_of_relayers` `C65_percentage_from_genesis_refuted` `C65_current_relayers_refuted` |
| C66 | Only relayers vote on the bridge, once each | proved | inversion of the vote call + invariant that stored votes are logged votes (BridgeProofs3-4); witnesses | `C66_votes_by_relayers` `C66_no_second_vote` `C66_outsiders_cannot_vote` |
| C67 | Bridge payouts are exact | proved | exact effects from the ledger lemmas | `C67_payout_exact` `C67_other_votes_move_nothing` |
| C68 | Vote threshold follows the relayer set | proved | arithmetic on the percentage | `C68_threshold_follows_relayers` `C68_only_membership_changes_threshold` |
| C69 | Bridge caps bound the flow | proved | log-indexed invariants, induction over histories | `C69_counters_exact` `C69_in_cap` `C69_out_cap` |
| C70 | Teleports are exact and their nonces have no gaps | proved | exact effects from the ledger lemmas | `C70_teleport_exact` `C70_nonces_without_gaps` |
| C71 | Locked tokens stay backed | proved | log-indexed invariants, induction over histories | `C71_locked_tokens_backed` |
| C72 | Disabled means disabled | proved | inversion of the calls, frame lemmas | `C72_disabled_means_disabled` |
| C73 | Expired proposals are dropped, live ones kept | proved | inversion of the calls, frame lemmas | `C73_votes_on_live_proposals` `C73_block_drops_exactly_expired` |
| C74 | A transfer is rejected only by enough votes against | proved | inversion of the vote call + invariant that stored votes are logged votes (BridgeProofs3-4); witnesses | `C74_rejection_needs_votes` `C74_bogus_payload_blocks_genuine_refuted` |
| C75 | Bridge registrations are consistent and governed | proved | inversion of the calls, frame lemmas | `C75_tokens_one_to_one` `C75_governance_only` `C75_setters_exact` `C75_register_exact` `C75_chains_exact` |
| C76 | The bridge bonus tops up exactly | proved | exact effects from the ledger lemmas | `C76_bonus_exact` `C76_short_gift_account_blocks_payout_refuted` |
| C77 | A relayer's vote on an open transfer is accepted | partial | progress lemma (vote_live) + panic witness | `C77_votes_are_accepted_partial` `C77_nonce_zero_panics_refuted` |
| C78 | Swap output is exact | proved | exact arithmetic of floor/ceil division over the AMM invariant (AmmProofs5) | `C78_swap_output_exact` |
| C79 | Adding liquidity and creating pools is exact | proved | exact arithmetic of floor/ceil division over the AMM invariant (AmmProofs5) | `C79_add_liquidity_exact` `C79_create_pool_exact` |
| C80 | Swaps succeed | partial | progress lemmas over the invariant; witness histories for the excluded cases | `C80_swap_succeeds_partial` `C80_swap_same_block` `C80_swaps_can_be_blocked_refuted` |
| C81 | Liquidity providers can leave and join | partial | progress lemmas over the invariant; witness histories for the excluded cases | `C81_providers_can_leave_partial` `C81_providers_can_join` `C81_providers_can_leave_refuted` |
| C82 | The protocol takes its configured share of the growth | partial | inequality between the minted share and the growth; witness for non-divisor fractions | `C82_protocol_fee_share_partial` `C82_protocol_fee_share_refuted` |
| C83 | Teleports go through | proved | progress lemma over `br_inv` | `C83_teleports_go_through` |
| C84 | Crowdloan contributions are backed | proved | one inductive invariant `cr_inv` (books, ledger backing, derivative backing) over all crowdloan and embedded streaming operations (CrowdProofs..7) | `C84_contributions_backed` |
| C85 | Crowdloan books add up | proved | one inductive invariant `cr_inv` (books, ledger backing, derivative backing) over all crowdloan and embedded streaming operations (CrowdProofs..7) | `C85_counters_are_sums` `C85_entries` |
| C86 | Crowdloan derivatives are backed | proved | one inductive invariant `cr_inv` (books, ledger backing, derivative backing) over all crowdloan and embedded streaming operations (CrowdProofs..7) | `C86_derivatives_backed` `C86_sole_vault` |
| C87 | Crowdloans neither create nor destroy relay-token claims | proved | one inductive invariant `cr_inv` (books, ledger backing, derivative backing) over all crowdloan and embedded streaming operations (CrowdProofs..7) | `C87_relay_supply` |
| C88 | contribute is exact and capped | proved | inversion of each call under the invariant, stated as exact deltas of every balance and book; refutations by evaluated histories | `C88_contribute_exact` `C88_cap` |
| C89 | The relay chain's answer settles exactly one contribution | proved | inversion of each call under the invariant, stated as exact deltas of every balance and book; refutations by evaluated histories | `C89_settlement_exact` `C89_settled_once` `C89_failed_answer_final_refuted` |
| C90 | claim pays one for one, once | proved | inversion of each call under the invariant, stated as exact deltas of every balance and book; refutations by evaluated histories | `C90_claim_exact` `C90_claim_once` `C90_streams_stay_consistent` |
| C91 | withdraw is exact | proved | inversion of each call under the invariant, stated as exact deltas of every balance and book; refutations by evaluated histories | `C91_withdraw_exact` |
| C92 | redeem is exact | proved | inversion of each call under the invariant, stated as exact deltas of every balance and book; refutations by evaluated histories | `C92_redeem_exact` |
| C93 | Contributors can get in and out | partial | progress lemmas (CrowdProofs9); refutations by evaluated histories | `C93_contribute_possible` `C93_withdraw_possible` `C93_redeem_possible` `C93_claim_possible` `C93_claim_always_possible_refuted` `C93_unclaimed_after_lease_refuted` `C93_redeem_own_vault_refuted` |
| C94 | Vault phases follow the life cycle | partial | case analysis over every operation | `C94_phase_changes` `C94_new_vaults_pending` `C94_answers_end` `C94_withdrawals_start` `C94_success_is_final_refuted` |
| C95 | Refunds are exact | proved | inversion of each call under the invariant, stated as exact deltas of every balance and book; refutations by evaluated histories | `C95_refund_exact` `C95_refund_for_exact` `C95_answers_accepted_refuted` |
| C96 | Only empty, finished vaults are dissolved | proved | inversion of each call under the invariant, stated as exact deltas of every balance and book; refutations by evaluated histories | `C96_dissolve_only_empty` `C96_old_answers_ignored_refuted` |
| C97 | Crowdloan administration is governed | proved | case analysis over every operation | `C97_governance_only` `C97_answers_and_proxy` |
| C98 | One live vault per para, one token per lease | proved | one inductive invariant `cr_inv` (books, ledger backing, derivative backing) over all crowdloan and embedded streaming operations (CrowdProofs..7) | `C98_one_live_vault` `C98_lease_token_fixed` `C98_vault_token` |
| C99 | The reported lease term rate is a monotone fraction | proved | arithmetic of the rounding functions (CrowdProofs9) | `C99_term_rate_bounded` `C99_term_rate_never_falls` `C99_term_rate_exact` |
| C100 | migrate_pending moves exactly what it sends | proved | inversion of each call under the invariant, stated as exact deltas of every balance and book; refutations by evaluated histories | `C100_migrate_exact` |
| C101 | The bonus is exact | proved | arithmetic of the rounding functions (CrowdProofs9) | `C101_bonus_exact` `C101_overflowing_bonus_lost` |
| C102 | Nobody loses through a crowdloan call | proved | per-account wealth is preserved by every operation (CrowdProofs10) | `C102_nobody_loses` |
| C103 | Liquid-staking parameters are set exactly and in range | proved | inversion of each setter; both directions of the acceptance condition | `C103_reserve_factor` `C103_unstake_reserve_factor` `C103_commission` `C103_cap` `C103_setters_exact` `C103_reduce_exact` |
| C104 | Crowdloan administration does exactly what it says | proved | inversion and construction of each call | `C104_create_accepted` `C104_create_exact` `C104_update_exact` `C104_setters_exact` |
| C105 | An emergency price is in force until reset | partial | evaluation of the price function for all inputs, with the AMM and liquid-staking models supplying reserves, issuance and exchange rate; recursion handled by a depth argument proved irrelevant for well-founded registrations | `C105_emergency_price_wins` `C105_reset_restores` `C105_origins` `C105_too_large_ignored_refuted` `C105_liquid_follows_emergency_refuted` |
| C106 | Oracle prices are converted exactly | proved | evaluation of the price function for all inputs, with the AMM and liquid-staking models supplying reserves, issuance and exchange rate; recursion handled by a depth argument proved irrelevant for well-founded registrations | `C106_oracle_price_exact` `C106_value_exact` `C106_auxiliary_price_exact` `C106_raw_price` |
| C107 | The liquid token is priced by its exchange rate | proved | evaluation of the price function for all inputs, with the AMM and liquid-staking models supplying reserves, issuance and exchange rate; recursion handled by a depth argument proved irrelevant for well-founded registrations | `C107_liquid_price_exact` `C107_liquid_price_never_falls` `C107_liquid_price_over_history` |
| C108 | LP tokens are priced by the geometric mean | proved | evaluation of the price function for all inputs, with the AMM and liquid-staking models supplying reserves, issuance and exchange rate; recursion handled by a depth argument proved irrelevant for well-founded registrations | `C108_lp_price_exact` `C108_no_panic` `C108_swap_never_lowers` |
| C109 | Foreign tokens are priced like the token they stand for | partial | evaluation of the price function for all inputs, with the AMM and liquid-staking models supplying reserves, issuance and exchange rate; recursion handled by a depth argument proved irrelevant for well-founded registrations | `C109_foreign_like_native` `C109_link_exact` `C109_depth_irrelevant` `C109_query_terminates_refuted` |
| C110 | Emergency shutdown stops exactly what it names | partial | inversion of dispatch, by induction on the nesting of calls, for an arbitrary behaviour of the other pallets; refutations by evaluated histories of a concrete runtime | `C110_filter_exact` `C110_toggle_exact` `C110_shutdown_can_be_undone` `C110_only_governance` `C110_disabled_pallet_stopped_refuted` |
| C111 | An EVM-signed call does exactly its call | proved | inversion of dispatch, by induction on the nesting of calls, for an arbitrary behaviour of the other pallets; refutations by evaluated histories of a concrete runtime | `C111_call_exact` `C111_call_accepted` |
| C112 | Nobody acts for an account without its signature | partial | inversion of dispatch, by induction on the nesting of calls, for an arbitrary behaviour of the other pallets; refutations by evaluated histories of a concrete runtime | `C112_signature_needed` `C112_other_unsigned` `C112_unverified_any_bytes` `C112_only_signer_refuted` |
| C113 | A signed call runs at most once | partial | every step moves the pair (removals, nonce) of an account forward; induction over the history | `C113_at_most_once` `C113_ordinary_at_most_once` `C113_replay_refuted` |
| C114 | The pool accepts what will be executed and paid | partial | inversion of dispatch, by induction on the nesting of calls, for an arbitrary behaviour of the other pallets; refutations by evaluated histories of a concrete runtime | `C114_pool_exact` `C114_accepted_runs` `C114_fee_exact` `C114_unpayable_is_free` `C114_accepted_pays_refuted` |
| C115 | EVM withdrawals are exact and the owner's | proved | inversion of dispatch, by induction on the nesting of calls, for an arbitrary behaviour of the other pallets; refutations by evaluated histories of a concrete runtime | `C115_withdraw_exact` `C115_withdraw_possible` |
| C116 | Fee assets are exactly those with a price | proved | correctness of the binary search on ascending lists; inductive invariant over all registry calls | `C116_supported_iff_priced` `C116_list_ascending` `C116_units_exact` `C116_remove_exact` |
| C117 | Asset ids and asset types correspond one to one | partial | correctness of the binary search on ascending lists; inductive invariant over all registry calls | `C117_resolution_sound` `C117_one_to_one_partial` `C117_register_exact` `C117_update_exact` `C117_deregister_exact` `C117_one_to_one_refuted` `C117_update_to_same_refuted` `C117_deregister_touches_one_refuted` |
| C118 | The currency adapter is one ledger | proved | inversion through the two underlying ledgers | `C118_transfer_exact` `C118_mint_exact` `C118_burn_exact` |
| C119 | Native locks are respected and governed | proved | inversion through the two underlying ledgers | `C119_lock_exact` `C119_lock_respected` `C119_other_assets_unlocked` `C119_unlocked_transfer` |
| C120 | StableSwap pools are backed | proved | inductive invariant over all StableSwap operations; inversion of each call to its exact effect | `C120_solvent` `C120_reserves_fit` |
| C121 | A StableSwap trade moves exactly what it quotes | proved | inductive invariant over all StableSwap operations; inversion of each call to its exact effect | `C121_swap_exact` |
| C122 | StableSwap trades are fairly priced | partial | the last round of the Newton iteration pins the root of the invariant polynomial (integer arithmetic); overflow branch evaluated symbolically; refutations by evaluated histories | `C122_price_partial` `C122_large_pool_pays_reserve` `C122_price_refuted` `C122_scarce_asset_is_cheap_refuted` `C122_round_trip_refuted` |
| C123 | The value D of a pool is computed accurately | partial | the last round of the Newton iteration pins the root of the invariant polynomial (integer arithmetic); overflow branch evaluated symbolically; refutations by evaluated histories | `C123_value_partial` `C123_balanced` `C123_large_pool_refuted` |
| C124 | StableSwap deposits mint a fair share | partial | inversion and progress lemmas; refutations by evaluated histories | `C124_add_exact` `C124_create_exact` `C124_fair_share_refuted` |
| C125 | StableSwap withdrawals are pro rata | proved | inductive invariant over all StableSwap operations; inversion of each call to its exact effect | `C125_remove_exact` `C125_protocol_fee_exact` |
| C126 | StableSwap providers can always leave | partial | inversion and progress lemmas; refutations by evaluated histories | `C126_providers_can_leave_partial` `C126_providers_trapped_refuted` `C126_large_pool_closed_refuted` |
| C127 | StableSwap pools are governed and unique | proved | inductive invariant over all StableSwap operations; inversion of each call to its exact effect | `C127_create_gated` `C127_lp_tokens_unique` `C127_pools_persist` |
| C128 | Exact-output StableSwap quotes suffice | partial | inversion and progress lemmas; refutations by evaluated histories | `C128_amounts_in_formula` `C128_amounts_in_refuted` |
| C129 | ERC20 transfer moves exactly the amount | proved | ABI codec lemmas (encode/decode inverse, any trailing bytes); every successful call is one of nine effects (inversion); induction over histories; refutations by evaluated calls | `C129_transfer_exact` `C129_transfer_live` |
| C130 | ERC20 balances fall only with the owner's consent | proved | ABI codec lemmas (encode/decode inverse, any trailing bytes); every successful call is one of nine effects (inversion); induction over histories; refutations by evaluated calls | `C130_transfer_from_exact` `C130_transfer_from_live` `C130_authority` `C130_allowance_history` |
| C131 | ERC20 approve sets the allowance | proved | ABI codec lemmas (encode/decode inverse, any trailing bytes); every successful call is one of nine effects (inversion); induction over histories; refutations by evaluated calls | `C131_approve_exact` `C131_approve_live` |
| C132 | A permit is signed by the owner and works once | proved | ABI codec lemmas (encode/decode inverse, any trailing bytes); every successful call is one of nine effects (inversion); induction over histories; refutations by evaluated calls | `C132_permit_exact` `C132_permit_live` `C132_nonces_never_fall` `C132_permit_once` |
| C133 | No DELEGATECALL of token precompiles | proved | evaluation of the dispatch chain for every context; arithmetic of addresses | `C133_no_delegatecall` |
| C134 | Non-payable and read-only calls | partial | ABI codec lemmas (encode/decode inverse, any trailing bytes); every successful call is one of nine effects (inversion); induction over histories; refutations by evaluated calls | `C134_assets_not_payable` `C134_assets_static_partial` `C134_native_value_stuck` `C134_native_payable_refuted` `C134_native_static_refuted` `C134_permit_static_refuted` |
| C135 | Token addresses and assets correspond | partial | evaluation of the dispatch chain for every context; arithmetic of addresses | `C135_asset_address` `C135_one_token` `C135_one_address_refuted` `C135_aliases` |
| C136 | ERC20 views tell the truth | proved | evaluation of the dispatch chain for every context; arithmetic of addresses | `C136_total_supply` `C136_balance_of` `C136_allowance` `C136_nonces` |
| C137 | Deposits and withdrawals of the wrapped native token are neutral | proved | ABI codec lemmas (encode/decode inverse, any trailing bytes); every successful call is one of nine effects (inversion); induction over histories; refutations by evaluated calls | `C137_deposit_exact` `C137_withdraw_exact` |
| C138 | ERC20 supply is governed | partial | ABI codec lemmas (encode/decode inverse, any trailing bytes); every successful call is one of nine effects (inversion); induction over histories; refutations by evaluated calls | `C138_supply_authority` `C138_balances_add_up` `C138_burn_exact_refuted` |
| C139 | Assets have unambiguous names across chains | partial | case analysis of the location conversion and of the trader; registry invariants of C116/C117 | `C139_two_names_one_asset` `C139_leaves_under_its_name` `C139_no_confusion` `C139_round_trip_partial` `C139_round_trip_refuted` |
| C140 | Execution is charged exactly | proved | case analysis of the location conversion and of the trader; registry invariants of C116/C117 | `C140_charge_exact` `C140_only_too_expensive` `C140_needs_concrete_asset` |
| C141 | Incoming messages create no tokens | partial | invariant over arbitrary executor operations: issuance + holding + pending revenue, with the weight refunded so far bounded by the first purchase; refutations by evaluated messages | `C141_no_creation_partial` `C141_no_creation_refuted` `C141_transfer_exact` |
| C142 | Unused weight is refunded at its price | partial | invariant over arbitrary executor operations: issuance + holding + pending revenue, with the weight refunded so far bounded by the first purchase; refutations by evaluated messages | `C142_refund_exact_partial` `C142_refund_bounded_refuted` `C142_second_asset_accounted_refuted` `C142_refund_never_panics_refuted` |
| C143 | Deposits credit exactly, gifts are bounded | partial | invariant over arbitrary executor operations: issuance + holding + pending revenue, with the weight refunded so far bounded by the first purchase; refutations by evaluated messages | `C143_deposit_exact` `C143_gift_made` `C143_gift_amount` `C143_gift_once_refuted` |
| C144 | Withdrawals and transfers by message are exact | proved | case analysis of the location conversion and of the trader; registry invariants of C116/C117 | `C144_withdraw_exact` `C144_transfer_exact` `C144_fallback_never_credits` `C144_unknown_rejected` |
| C145 | Relay-chain requests send exactly the right message | proved | inversion of the common shape of all requests; induction over histories | `C145_request_exact` `C145_request_succeeds` `C145_no_fee_no_message` |
| C146 | Queries are never confused, fees are backed | proved | inversion of the common shape of all requests; induction over histories | `C146_queries_unique` `C146_query_fixed` `C146_query_new` `C146_fees_backed` |
| C147 | A reported success means it happened | partial | symbolic execution of the message on an arbitrary relay state machine; refutation by a relay whose calls fail | `C147_answer_is_always_success` `C147_success_means_done_refuted` |
| C148 | An answer means all calls were dispatched and paid | proved | symbolic execution of the message on an arbitrary relay state machine; refutation by a relay whose calls fail | `C148_answer_after_all_calls` `C148_calls_in_order` `C148_fee_too_low` `C148_fee_conserved` |
| C149 | Encoded relay-chain calls are unambiguous | proved | prefix-injectivity of little-endian, compact and composite encodings, induction on nested calls | `C149_encoding_injective` `C149_encoding_prefix_free` `C149_networks_differ` |
| C150 | Message fees are governed and never zero | proved | inversion of the common shape of all requests; induction over histories | `C150_update_exact` `C150_update_effect` `C150_fee_never_zero` `C150_add_fees_exact` |
| C151 | Delegation does not grow | proved | structural induction on nested calls with an invariant on the origin (a member acts only under a limited filter), lifted to histories; refutation by an EVM-signed call | `C151_delegation_does_not_grow` `C151_no_token_calls` `C151_undelegated` |
| C152 | A delegated call runs as allowed, in the principal's name | proved | inversion of single extrinsics | `C152_types_disjoint` `C152_delegated_call_exact` `C152_delegate_can_act` |
| C153 | The call filter holds at every depth | partial | structural induction on nested calls with an invariant on the origin (a member acts only under a limited filter), lifted to histories; refutation by an EVM-signed call | `C153_filter_everywhere` `C153_never_signed` `C153_shutdown_everywhere` `C153_evm_signed_filtered_refuted` |
| C154 | Principals control their delegates | proved | inversion of single extrinsics | `C154_add_exact` `C154_remove_exact` `C154_always_revocable` `C154_former_delegate_refused` |
| C155 | Delayed delegates give notice | proved | induction over calls and histories: announcements are either old or carry the current block | `C155_announced_only` `C155_notice_period` `C155_rejected` `C155_ripe_usable` |
| C156 | A limited delegate gets none of the principal's tokens | partial | refutation by evaluation of a history that uses the streaming model of C15-C20 | `C151_no_token_calls` `C156_limited_delegate_gets_nothing_refuted` |
| C157 | A lending market stays usable | partial | invariant over histories (the exchange-rate check refuses every state with backing >= supply; no other call lowers it); refutation by a concrete history | `C157_frozen_forever` `C157_collateral_blocks_account` `C157_refuted` |
| C158 | Debts can always be repaid | partial | evaluation of the call under explicit range conditions; induction over the markets for the missing price | `C158_repay_partial` `C158_refuted` |
| C159 | Suppliers can withdraw | partial | evaluation of the call under explicit range conditions; induction over the markets for the missing price | `C159_withdraw_partial` `C159_debtless_withdraw_partial` `C159_missing_price_blocks_everyone` `C159_refuted` |
| C160 | Claiming rewards pays exactly what was earned | proved | induction over the markets that a claim visits; exact index arithmetic | `C160_claim_exact` `C160_claim_for_market_exact` `C160_claim_goes_through` |
| C161 | Rewards stay within the configured emission | partial | every call as a sequence of elementary reward moves; a potential (credited + pending + not yet indexed) that grows only with the blocks; refutation by evaluation | `C161_supplier_rewards_partial` `C161_refuted` |
| C162 | Rewards earned are not taken away by others | partial | the same moves keep what an account can claim; refutation by evaluation | `C162_others_keep_rewards_partial` `C162_time_keeps_rewards_partial` `C162_refuted` |
| C163 | Contributions stay backed across upgrades | proved | the invariant of the crowdloans model is preserved by inserting rows; induction over histories of calls and upgrades | `C163_backed_across_upgrades` `C163_books_across_upgrades` `C163_entries_across_upgrades` |
| C164 | A crowdloan upgrade does exactly what was announced | proved | case analysis on the upgrade; fold over the rows with distinct parachains | `C164_other_versions_untouched` `C164_money_untouched` `C164_vaults_exact` `C164_wired_exact` |
| C165 | An upgrade takes effect once | partial | the version strictly grows; refutation by evaluation | `C165_once_partial` `C165_wired_upgrade_once_refuted` |
| C166 | Derivative tokens stay redeemable across upgrades | partial | sum of the rows against the token gap, constant in the calls; refutation by evaluation and the constant gap | `C166_tokens_covered_partial` `C166_no_shortage` `C166_wired_upgrade_refuted` |
| C167 | No contribution is lost in an upgrade | partial | frame of the fold; refutations by evaluation | `C167_old_vaults_kept_partial` `C167_overwritten_refuted` `C167_shared_books_refuted` |
| C168 | The lending upgrade keeps markets and positions | proved | the map of markets is translated pointwise; the threshold dominates the factor, so the values in the liquidation check are ordered (sums over maps) | `C168_upgrade_exact` `C168_threshold_bounds` `C168_nobody_becomes_liquidatable` `C168_runs_once` |
| C169 | After the lending upgrade nothing is lost or stuck | partial | evaluation; the first accrual of a market without a time stamp changes nothing but the time | `C169_market_adjustable_partial` `C169_rewards_lost_refuted` `C169_gap_bears_no_interest_refuted` `C169_stuck_market_refuted` |
| C170 | The registry upgrade keeps all names | proved | induction over the drained entries with an injective conversion | `C170_names_kept` `C170_nothing_new` `C170_fails_only_without_conversion` |
| C171 | The registry upgrade keeps the fee assets | partial | a monotone conversion keeps the list ascending, then binary search is exact; refutation for any representation with the two orders | `C171_fee_assets_kept_partial` `C171_refuted` |
| C172 | Routed trades go through | partial | induction over the route with progress of each hop (C80) and the frame of earlier hops; refutation by evaluation | `C172_exact_input_goes_through_partial` `C172_same_block_fits` `C172_exact_output_one_hop_partial` `C172_exact_output_refuted` |
| C173 | Sending vouchers moves just the vouchers | partial | unfolding of the transfer; progress from the invariants of rewards and vouchers (voucher identifiers are no markets); refutation by evaluation | `C173_transfer_exact` `C173_free_vouchers_go_through` `C173_refuted` |
| C174 | Reserve movements are exact | partial | unfolding of the calls and of the redemption; refutation by evaluation | `C174_add_exact` `C174_reduce_exact` `C174_reduce_goes_through` `C174_incentive_partial` `C174_stale_rate_refuted` |
| C175 | Unhealthy accounts can be liquidated | partial | progress of each step of the liquidation from the invariants of debts, vouchers and rewards, after the two accruals; refutation by evaluation | `C175_liquidation_goes_through_partial` `C175_one_price_blocks_all` `C175_refuted` |
| C176 | Supplying goes through | partial | progress of each step from the invariants; refutation by the stuck market of C157 | `C176_supply_goes_through_partial` `C176_refuted` |
| C177 | Covered loans go through | partial | progress of each step, the health query computed as sums over active markets; refutation by evaluation | `C177_borrow_goes_through_partial` `C177_refuted` |
| C178 | The choice of collateral is the supplier's | partial | unfolding of the call; progress of the value sums; refutation by evaluation | `C178_exact` `C178_on_goes_through` `C178_off_goes_through_partial` `C178_stale_refuted` |

## Where the code does not do what a user would expect
Each item marked with a property has a theorem (usually `*_refuted` with a reachable witness).

* AMM: the exact-output quote can be too small by one for the fee actually charged (C09); the time-weighted price charges the
  elapsed interval at the price *after* the trade (C10).
* Router: the exact-output trade can deliver less than asked when the quote is short (C13); its balance check is strict, so a
  caller who holds exactly the input is rejected.
* Streaming: the StreamCreated event always says `cancellable = true` (C44).
* Farming: the reward accumulator can overflow and then block withdrawals (C45); dust of the reward rate is never
  claimable (C46).
* Loans: a jump model with jump utilisation 0 bricks a market (C27); disabling a liquidation-free collateral, transferring vouchers
  at a stale rate, and interest that has not accrued in other markets allow undercollateralised accounts (C31); the supply cap
  ignores what is lent out (C33); moving vouchers duplicates rewards (C34); update_market accepts an incentive below its
  reserved part, then liquidation panics, and a large price overflows a raw addition (C35). Seen but without a theorem:
  reduce_incentive_reserves does not accrue first; transferring all vouchers to oneself clears the collateral flag.
* Liquid staking: the Average bond strategy can leave an account below the minimum bond (C41); two rebond requests for the same
  chunk both add to the active stake (C57); a failed relay-chain response is ignored, its reservation is never released and
  blocks ledger updates (C59); fast-unstake requests count reserves nobody paid (C61); two unbond requests for the same stake make the second
  confirmation panic (C62); unaffordable XCM fees stop the eras (C63). Seen but without a theorem: claim_for(lending) burns the
  asked amount although the redeem may return less.
- Bridge (C64): `unregister_chain` + `register_chain` clears the settled nonces; a settled transfer can be paid again.
- Bridge (C65): the vote threshold is only computed when the relayer set changes; relayers from genesis leave it at 1.
- Bridge (C65): votes of removed relayers keep counting; after a set change even a vote against can trigger the payout.
- Bridge (C74): a rejected bogus payload settles the nonce for the genuine payload too.
- Bridge (C76): a gift account holding exactly the gift (or up to the existential deposit more) makes the deciding vote fail.
- Bridge (C77): nonce 0 panics in `update_bridge_registry` once another nonce of the chain is settled.
- AMM (C80): `do_update_oracle` fails once a price accumulator would pass 2^128-1 (FixedU128 in u128, first update counts from block 0), and every later swap of the pool fails with it.
- AMM (C81): with a protocol fee above one half on a pool whose reserves were not recorded (fee switched on later), `do_mint_protocol_fee` underflows: no liquidity can be added or removed.
- AMM (C82): the fee share is 1/floor(1/fraction): a 40 per cent setting takes 50 per cent.
- Crowdloans (C89): a *failed* answer leaves the request in place; the update origin can answer it again (as success), settling it twice.
- Crowdloans (C93): a claim fails as a whole when the bonus is smaller than the number of seconds it is streamed over (rate 0), when the account's stream library is full, or when the pallet lacks native tokens.
- Crowdloans (C93): contributions not claimed before `slot_expired` can only be claimed by governance (`force_claim_for`).
- Crowdloans (C93): two vaults of one lease share a derivative token; holders of one can drain the other vault.
- Crowdloans (C94): a late answer to a withdrawal turns a Succeeded vault into Failed.
- Crowdloans (C95): after refunding in-flight contributions the relay chain's answer can never be accepted.
- Crowdloans (C96): a vault re-created for the same para and lease receives answers to requests of the dissolved one.
- Crowdloans (C101): a bonus above 2^128-1 is silently dropped.
- Prices (C105): an emergency price too large to be expressed per smallest unit is silently ignored: the oracle's price stays in force; an emergency price of the relay token does not reach the liquid token.
- Prices (C109): `set_foreign_asset(a, a)` makes every price query of `a` recurse without end.
- Heiko and Vanilla runtimes (C112): `VerifySignature = false` lets anybody run any call in the name of any account with 65 arbitrary bytes as signature.
- EVM signatures (C110): the inner call is dispatched with `dispatch_bypass_filter`, so emergency shutdown and the call filter do not apply to it.
- EVM signatures (C113): the signed payload has no expiry or genesis hash; after the signer's account was reaped and refunded its nonce restarts at zero and old signatures are replayable.
- EVM signatures (C114): the pool does not check that the signer can pay; such calls are accepted for ever at no cost.
- Asset registry (C117): a type already registered can be given to another asset; updating an asset to its own type deletes the type's resolution; deregistering an asset can take a type away from another.
- StableSwap (C122): `get_amount_out` is called with the reserves of input and output asset exchanged, so a trade is priced as if the output asset had been paid in: the scarce asset is cheap, trading 1000 units back and forth on a fresh pool gains a factor of 10^8.
- StableSwap (C122, C123, C126): `div` in helpers.rs treats operands above u128 as zero; from about 10^18 units per side `compute_d` returns 0, every trade pays out the whole reserve and no deposit succeeds.
- StableSwap (C124): a deposit mints share * (1 + growth), so joining and leaving at once takes a profit from the other providers.
- StableSwap (C126): three trades on a fresh pool reach reserves where `compute_d` does not converge; every withdrawal and deposit then panics.
- StableSwap (C128): `get_amounts_in` uses the constant-product formula.
- ERC20 (C134): the native token's precompile drops the modifier check (`.ok()`): value sent with transfer/approve is accepted and can never leave the precompile's account; static calls move funds. `permit` counts as a view in both precompiles.
- ERC20 (C135): bytes 4..16 of an asset address are ignored: 2^96 aliases, each with its own permit domain and nonces.
- ERC20 (C138): `burn` above the balance burns the balance and returns true.
- XCM (C139): an asset registered under a location with parents = 0 leaves under it but can never be named again, since lookups reanchor the name.
- XCM (C141, C142): `buy_weight` adds the bought weight twice; refunds can exceed what was paid once the first purchase was free or more weight than bought is refunded. Payments in a second asset are neither refunded nor credited to the treasury. `refund_weight` multiplies unchecked where `buy_weight` saturates.
- XCM (C143): the gift of native tokens is given again to an account that was emptied in between.
- XCM helper (C147): ReportError is executed inline, right after the Transact instructions, whose dispatch failures do not stop the message: the answer is success whatever the calls returned. Liquid staking and crowdloans treat it as the outcome.
- Delegation (C156): `ProxyType::Streaming` allows `create` with any recipient, so a streaming delegate can pay the principal's tokens to itself.
- Delegation: `is_superset` is false even for equal types, so only `Any` delegates can manage delegates at all (safe, used by C151).
- Call filter (C153, C110): the inner call of evm-signatures is dispatched with `dispatch_bypass_filter`, so calls outside the runtime's lists (asset creation, pallet_xcm) run that way.
- Lending (C157): the exchange rate must be below 1, and anyone can push it there by sending tokens to the pallet account: in a new market 49 units on top of a first supply of one unit. From then on every call in that market fails, for ever, and an account that has enabled such vouchers as collateral cannot be liquidated, borrow or withdraw.
- Lending (C159): an active market without a price makes every withdrawal of collateral and every borrow fail, for all accounts, even without a debt.
- Lending rewards (C161): loans too small to bear interest keep their amount while the borrow index grows, and rewards are divided by the sum scaled down with the index: the borrower is paid a multiple of the emission.
- Lending rewards (C162): liquidation updates the borrow rewards of the liquidator instead of the borrower, whose rewards since the last update are then computed on the smaller debt.
- Crowdloan upgrades (C165): v4, the upgrade wired into runtime/parallel, never writes the storage version, so each later release that contains it sets the amount of the vault of 2040 back to 3000 DOT, undoing the redemptions recorded since.
- Crowdloan upgrades (C166): v4 lowers the recorded amount of that vault without touching the tokens issued for it: the difference can never be redeemed.
- Crowdloan upgrades (C167): v1-v3 overwrite a vault that exists under the same key and set the book counter to a constant; the checks that would notice (`pre_migrate`) run only under try-runtime.
- Crowdloan upgrades: the v2 row of parachain 2011 records the amount of parachain 2032 (4898587497400000), while its comment names 484572193000000.
- Lending upgrade (C169): v3 does not move `RewardAccured` to `RewardAccrued`, so credited rewards can no longer be claimed; `LastAccruedTimestamp` is dropped while the per-market time starts at zero, so no interest is charged for the gap; collateral factors of 91% or more get a threshold of 100%, with which `update_market` refuses every update.
- Registry upgrade (C171): the list of fee assets is searched by bisection but converted element by element without sorting; locations with general keys are ordered differently in XCM 2 and 3, so accepted assets can be missed afterwards.
- Router (C172): `swap_tokens_for_exact_tokens` requires strictly more than the input, so a trader with exactly the input is refused, while `swap_exact_tokens_for_tokens` with the same amounts goes through.
- Lending (C158): whoever sends tokens to the pallet until cash plus loans reach the number of vouchers makes every debt of the market unpayable for ever.
- Lending (C173): transferring all vouchers to oneself removes the entry and with it the collateral flag.
- Lending (C174): `reduce_incentive_reserves` does not accrue interest first and redeems at the stale rate.
- Lending (C175): the health check of a liquidation always asks for the price of the liquidation-free currency; when it is missing no account can be liquidated, whatever it borrowed.
- Lending (C178): switching collateral off does not accrue interest first; an account can take away collateral that the interest due already needs and is undercollateralised at once.

## Trusted base
* The Coq 8.16.1 kernel (including `vm_compute`, used for concrete witnesses and examples) and the definitions of the Coq standard library and std++ that occur in
  statements.
* Axioms: none. `Print Assumptions` after every property theorem prints "Closed under the global context". (vcheck lists seven names
  `Coq.ssr.ssrunder.Under_rel.*`: they are fields of a module type inside the ssreflect plugin files that std++ loads, not
  assumptions of any theorem here.)
* No functors, module types, `Declare Module`, axioms, admitted proofs or disabled checks are used; sections are closed with
  their variables generalised.
* The reading of the Rust source, and of the dependencies that are not in the sandbox: sp-arithmetic (rounding of FixedU128 and
  Permill), pallet-assets / pallet-balances (a transfer moves exactly the amount or fails), FRAME (transactional storage).

## Testing the theorems
`seeded/LOG.jsonl` records wrong programs: one definition of a model is edited in a scratch copy, everything is rebuilt, and the theorems
that no longer prove are listed. Edits that survived led to new or stronger theorems (named in the log), or are equivalent programs.
