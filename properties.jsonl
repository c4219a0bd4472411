{"id": "C01", "title": "AMM swap never decreases the constant product", "statement": "A successful AMM swap of amount_in of one asset never decreases base_reserve*quote_reserve of the pool it touches, moves exactly amount_in from the trader to the AMM account and exactly the quoted output back, and touches no other pool.", "quantifier": "all pool states, trade sizes, fee rates, directions, traders", "why_tests_cant": "rounding of the fee and of the output quotient differs for every triple (amount, reserve in, reserve out); tests sample a few triples", "anchors": ["pallets/amm/src/lib.rs:do_swap", "pallets/amm/src/lib.rs:get_amount_out"]}
{"id": "C02", "title": "AMM round trips cannot profit", "statement": "Swapping some amount of X for Y and immediately swapping all received Y back (in any number of intermediate swaps on that pool) never returns more X than was put in.", "quantifier": "all pools, amounts and finite sequences of swaps on one pool", "why_tests_cant": "needs every sequence of trades and every rounding combination", "anchors": ["pallets/amm/src/lib.rs:do_swap"]}
{"id": "C03", "title": "LP shares never lose value", "statement": "For every AMM operation (swap, add_liquidity, remove_liquidity) with the protocol fee off, base_reserve*quote_reserve divided by the square of the LP issuance never decreases, so no trader or liquidity provider can dilute the others.", "quantifier": "all pool states, all operation histories on a pool", "why_tests_cant": "rounding of minted and burnt LP amounts must favour the pool in every state reached by any history", "anchors": ["pallets/amm/src/lib.rs:do_add_liquidity", "pallets/amm/src/lib.rs:do_remove_liquidity", "pallets/amm/src/lib.rs:do_swap"]}
{"id": "C04", "title": "AMM pallet account is always solvent", "statement": "In every reachable state, for every asset the AMM pallet account holds at least the sum of the reserves of that asset over all pools.", "quantifier": "all finite histories of AMM/router calls and outside transfers by users, all assets", "why_tests_cant": "sum over all pools under every interleaving of operations", "anchors": ["pallets/amm/src/lib.rs:Pools", "pallets/amm/src/lib.rs:do_swap", "pallets/amm/src/lib.rs:do_add_liquidity", "pallets/amm/src/lib.rs:do_remove_liquidity"]}
{"id": "C05", "title": "add_liquidity respects the caller's bounds", "statement": "A successful add_liquidity takes from the caller at most the desired amounts and at least the minimum amounts (for the asset they were given for, in whichever order the pair was passed), increases the reserves by exactly those amounts, and mints LP no larger than the proportional share of either contribution.", "quantifier": "all pools, desired and minimum amounts, both pair orders", "why_tests_cant": "depends on rounding in the ratio computation for every reserves/amounts combination", "anchors": ["pallets/amm/src/lib.rs:add_liquidity", "pallets/amm/src/lib.rs:get_ideal_amounts", "pallets/amm/src/lib.rs:do_add_liquidity"]}
{"id": "C06", "title": "remove_liquidity pays at most the pro-rata share", "statement": "A successful remove_liquidity of l LP pays floor(l*reserve/issuance) of each asset (issuance after the protocol fee mint), burns exactly l LP from the caller and reduces the reserves by exactly the amounts paid.", "quantifier": "all pool states and l", "why_tests_cant": "all roundings", "anchors": ["pallets/amm/src/lib.rs:remove_liquidity", "pallets/amm/src/lib.rs:calculate_reserves_to_remove", "pallets/amm/src/lib.rs:do_remove_liquidity"]}
{"id": "C07", "title": "A created pool is never drained", "statement": "Once created, a pool always has both reserves strictly positive and its LP issuance is at least MinimumLiquidity, of which MinimumLiquidity stays on the lock account.", "quantifier": "all histories after pool creation", "why_tests_cant": "needs an invariant over arbitrary histories", "anchors": ["pallets/amm/src/lib.rs:do_add_liquidity", "pallets/amm/src/lib.rs:do_remove_liquidity", "pallets/amm/src/lib.rs:do_swap"]}
{"id": "C08", "title": "One canonical pool per pair", "statement": "(a,b) and (b,a) always address the same pool; a pair has at most one pool; identical assets are always rejected; a pool is only created with a fresh LP token, and no two pools share an LP token.", "quantifier": "all pairs, all histories", "why_tests_cant": "invariant over all creation histories", "anchors": ["pallets/amm/src/lib.rs:sort_assets", "pallets/amm/src/lib.rs:create_pool"]}
{"id": "C09", "title": "Exact-output quote is sufficient", "statement": "Swapping the input amount returned by the AMM's exact-output quote (get_amounts_in) for a desired output yields at least that output.", "quantifier": "all reserves, desired outputs and fee rates", "why_tests_cant": "the +1 rounding correction works for most but maybe not all values; sampling misses the bad ones", "anchors": ["pallets/amm/src/lib.rs:get_amount_in", "pallets/amm/src/lib.rs:get_amount_out"]}
{"id": "C10", "title": "TWAP accumulator records the price in force", "statement": "The cumulative price stored in a pool only ever grows, and the amount added on a trade at block n equals (blocks elapsed since last update) times the price that was in force during these blocks (the pre-trade price).", "quantifier": "all histories of trades and block numbers", "why_tests_cant": "a property of accumulated history", "anchors": ["pallets/amm/src/lib.rs:do_update_oracle", "pallets/amm/src/lib.rs:do_swap"]}
{"id": "C11", "title": "Protocol fee mint is bounded by the growth", "statement": "With the protocol fee on, the LP minted to the fee receiver on add/remove_liquidity never takes more than the growth: value per LP share (sqrt of the product over issuance) after the fee mint is at least what it was at the last liquidity event.", "quantifier": "all pools, fee rates, growth histories", "why_tests_cant": "nonlinear rounding over all values", "anchors": ["pallets/amm/src/lib.rs:do_mint_protocol_fee"]}
{"id": "C12", "title": "Exact-input routing honours the minimum and its quote", "statement": "A successful swap_exact_tokens_for_tokens debits the trader exactly amount_in of the first asset, credits exactly the quoted final amount, which is at least min_amount_out, of the last asset, and leaves all other balances of the trader unchanged.", "quantifier": "all routes, pool states, amounts", "why_tests_cant": "depends on quotes computed before any hop staying valid while hops execute, for any route", "anchors": ["pallets/router/src/lib.rs:swap_exact_tokens_for_tokens", "pallets/router/src/lib.rs:route_checks", "pallets/amm/src/lib.rs:get_amounts_out"]}
{"id": "C13", "title": "Exact-output routing honours the maximum and delivers the output", "statement": "A successful swap_tokens_for_exact_tokens debits the trader at most max_amount_in of the first asset and credits at least amount_out of the last asset.", "quantifier": "all routes, pool states, amounts", "why_tests_cant": "quotes are rounded at every hop; failing inputs are sparse", "anchors": ["pallets/router/src/lib.rs:swap_tokens_for_exact_tokens", "pallets/amm/src/lib.rs:get_amounts_in"]}
{"id": "C14", "title": "Best route is optimal among all simple routes", "statement": "get_all_routes enumerates exactly the simple paths between the two tokens in the pool graph for which a quote exists, and get_best_route returns one with the largest output (or the smallest input when reversed).", "quantifier": "all pool graphs, amounts and token pairs", "why_tests_cant": "ranges over all graphs; completeness of a search cannot be tested exhaustively", "anchors": ["pallets/router/src/lib.rs:get_all_routes", "pallets/router/src/lib.rs:get_best_route", "pallets/router/src/lib.rs:get_output_routes"]}
{"id": "C15", "title": "Streaming pallet is solvent", "statement": "In every reachable state, for every asset the streaming account holds at least the sum of the remaining balances of all unfinished streams in that asset.", "quantifier": "all histories of create, withdraw, cancel and of time", "why_tests_cant": "sum over arbitrary sets of streams under any interleaving", "anchors": ["pallets/streaming/src/lib.rs:create", "pallets/streaming/src/lib.rs:withdraw", "pallets/streaming/src/lib.rs:cancel"]}
{"id": "C16", "title": "A recipient is never paid ahead of schedule", "statement": "At every time the total withdrawn by the recipient of a stream is at most rate_per_sec times the seconds elapsed since start (capped at the stop time), except that in the native currency a withdrawal leaving at most the existential deposit may sweep the whole remainder.", "quantifier": "all streams, times, withdrawal sequences", "why_tests_cant": "every sequence of partial withdrawals at arbitrary times", "anchors": ["pallets/streaming/src/lib.rs:withdraw", "pallets/streaming/src/types.rs:balance_of", "pallets/streaming/src/types.rs:delta_of"]}
{"id": "C17", "title": "Streams conserve the deposit", "statement": "For every stream, deposit = amounts paid to the recipient + amount refunded to the sender + remaining balance, at every point of every history; a finished stream has remaining balance zero paid out in full.", "quantifier": "all streams and histories", "why_tests_cant": "conservation over arbitrary histories", "anchors": ["pallets/streaming/src/lib.rs:withdraw", "pallets/streaming/src/lib.rs:cancel", "pallets/streaming/src/types.rs"]}
{"id": "C18", "title": "Cancellation splits fairly", "statement": "cancel succeeds only for the sender, only for an unfinished cancellable stream, pays the recipient exactly what had accrued and not been withdrawn and the sender exactly the rest.", "quantifier": "all streams, callers, cancellation times", "why_tests_cant": "every cancellation time relative to start/stop and withdrawals", "anchors": ["pallets/streaming/src/lib.rs:cancel", "pallets/streaming/src/types.rs:balance_of"]}
{"id": "C19", "title": "Only the recipient can withdraw", "statement": "withdraw succeeds only for the recipient, never for more than what is currently available, and changes no stream other than the one named.", "quantifier": "all callers, streams, amounts, times", "why_tests_cant": "all callers and amounts", "anchors": ["pallets/streaming/src/lib.rs:withdraw"]}
{"id": "C20", "title": "Stream libraries are bounded, sorted and only finished streams are pruned", "statement": "Each per-account stream list stays sorted from newest to oldest with no duplicates and within its bound; the finished list never exceeds MaxFinishedStreamsCount; an unfinished stream is never deleted.", "quantifier": "all histories and accounts", "why_tests_cant": "depends on arbitrary create/finish orders", "anchors": ["pallets/streaming/src/lib.rs:update_finished_stream_library", "pallets/streaming/src/lib.rs:try_push_stream_library"]}
{"id": "C21", "title": "Farming pool total equals the sum of positions", "statement": "For every farming pool, total_deposited equals the sum of deposit_balance over all users, in every reachable state.", "quantifier": "all pools and histories of deposit/withdraw/redeem", "why_tests_cant": "sum over arbitrary user sets", "anchors": ["pallets/farming/src/lib.rs:deposit", "pallets/farming/src/lib.rs:withdraw", "pallets/farming/src/types.rs"]}
{"id": "C22", "title": "Farming principal is always backed", "statement": "For each deposited asset, the pool account holds at least the sum of all deposits and of all locked (cooling down) withdrawals over all pools of that asset, so every withdraw and redeem that is due can be paid.", "quantifier": "all histories, all assets", "why_tests_cant": "sum over positions of several pools sharing one account", "anchors": ["pallets/farming/src/lib.rs:deposit", "pallets/farming/src/lib.rs:withdraw", "pallets/farming/src/lib.rs:redeem"]}
{"id": "C23", "title": "Cooldown is enforced", "statement": "With a non-zero cooldown, withdraw pays nothing immediately; redeem pays exactly the sum of the locked amounts whose age is at least the cooldown and keeps the others; nothing can be withdrawn before the pool's unlock height.", "quantifier": "all users, heights, withdrawal sequences", "why_tests_cant": "all schedules of withdraw/redeem", "anchors": ["pallets/farming/src/lib.rs:withdraw", "pallets/farming/src/lib.rs:redeem"]}
{"id": "C24", "title": "Farming rewards are never over-distributed", "statement": "For one pool, the sum of rewards claimed by all users plus the sum of pending rewards never exceeds the sum dispatched into the pool.", "quantifier": "all histories of dispatch/deposit/withdraw/claim", "why_tests_cant": "rounding of the per-share accumulator over arbitrary user sets and histories", "anchors": ["pallets/farming/src/lib.rs:update_reward", "pallets/farming/src/types.rs:reward_per_share", "pallets/farming/src/lib.rs:dispatch_reward", "pallets/farming/src/lib.rs:claim"]}
{"id": "C25", "title": "Reward accumulator is monotone and per-user reward is never lost", "statement": "reward_per_share_stored never decreases within a pool and a user's claimable reward never decreases except by claiming it.", "quantifier": "all histories", "why_tests_cant": "all histories", "anchors": ["pallets/farming/src/types.rs:reward_per_share", "pallets/farming/src/lib.rs:update_reward", "pallets/farming/src/lib.rs:earned"]}
{"id": "C26", "title": "Interest rate models are bounded and monotone", "statement": "For every model accepted by check_model, the borrow rate is non-decreasing in utilisation, equals base_rate at utilisation 0 and the full rate at utilisation 1 (up to 10^-12 of rounding), and never exceeds the full rate; the supply rate never exceeds the borrow rate.", "quantifier": "all accepted models, all utilisations", "why_tests_cant": "continuous domain of utilisations and parameters", "anchors": ["pallets/loans/src/rate_model.rs:JumpModel", "pallets/loans/src/rate_model.rs:CurveModel"]}
{"id": "C27", "title": "An accepted interest model never bricks a market", "statement": "For every rate model accepted by check_model the borrow rate is defined for every utilisation.", "quantifier": "all accepted models and utilisations", "why_tests_cant": "needs the full parameter space (including jump utilisation 0)", "anchors": ["pallets/loans/src/rate_model.rs:check_model", "pallets/loans/src/rate_model.rs:get_borrow_rate"]}
{"id": "C28", "title": "Interest accrual is monotone", "statement": "Accruing interest never decreases total borrows, total reserves, the borrow index or any borrower's debt, and is idempotent within one timestamp.", "quantifier": "all markets, timestamps, rates", "why_tests_cant": "all states and elapsed times", "anchors": ["pallets/loans/src/interest.rs:accrue_interest", "pallets/loans/src/lib.rs:current_borrow_balance"]}
{"id": "C29", "title": "Deposits and redemptions never dilute suppliers", "statement": "mint, redeem, redeem_all, borrow and repay_borrow never decrease the exchange rate of the voucher (up to interest accrual which only increases it), for every amount.", "quantifier": "all market states and amounts", "why_tests_cant": "rounding of voucher computation in every state", "anchors": ["pallets/loans/src/lib.rs:do_mint", "pallets/loans/src/lib.rs:do_redeem_voucher", "pallets/loans/src/interest.rs:exchange_rate", "pallets/loans/src/lib.rs:calc_underlying_amount", "pallets/loans/src/lib.rs:calc_collateral_amount"]}
{"id": "C30", "title": "Voucher supply equals voucher holdings", "statement": "In every reachable state the total supply of a market equals the sum of voucher balances over all accounts, for every market.", "quantifier": "all histories of mint, redeem, transfer, liquidate", "why_tests_cant": "sum over arbitrary account sets", "anchors": ["pallets/loans/src/lib.rs:TotalSupply", "pallets/loans/src/lib.rs:AccountDeposits", "pallets/loans/src/ptoken.rs"]}
{"id": "C31", "title": "Borrowing and redeeming keep the account solvent", "statement": "After a successful borrow, redeem, ptoken transfer or disabling of a collateral by an account that was solvent, the account's collateral value (with collateral factors, current interest) is at least its borrow value, up to rounding.", "quantifier": "all accounts, portfolios and prices", "why_tests_cant": "portfolio-wide condition over all histories", "anchors": ["pallets/loans/src/lib.rs:ensure_liquidity", "pallets/loans/src/lib.rs:borrow_allowed", "pallets/loans/src/lib.rs:redeem_allowed", "pallets/loans/src/lib.rs:do_collateral_asset", "pallets/loans/src/lib.rs:get_account_liquidity"]}
{"id": "C32", "title": "Liquidation is only possible and only up to the close factor on unhealthy accounts", "statement": "liquidate_borrow succeeds only if the borrower has a shortfall (or is short on liquidation-free liquidity), repays at most close_factor of the debt, and the borrower's seized vouchers equal exactly what liquidator plus incentive reserve receive.", "quantifier": "all portfolios, prices, repay amounts", "why_tests_cant": "all portfolios and prices", "anchors": ["pallets/loans/src/lib.rs:do_liquidate_borrow", "pallets/loans/src/lib.rs:liquidate_borrow_allowed", "pallets/loans/src/lib.rs:liquidated_transfer"]}
{"id": "C33", "title": "Reserves and caps bound borrowing and supplying", "statement": "A successful borrow leaves total borrows within the borrow cap and leaves the market's cash at least the total reserves; a successful mint leaves the supplied value within the supply cap.", "quantifier": "all states and amounts", "why_tests_cant": "all states", "anchors": ["pallets/loans/src/lib.rs:do_borrow", "pallets/loans/src/lib.rs:ensure_under_borrow_cap", "pallets/loans/src/lib.rs:ensure_under_supply_cap", "pallets/loans/src/lib.rs:ensure_enough_cash"]}
{"id": "C34", "title": "Supplier rewards are not double counted by moving vouchers", "statement": "Transferring vouchers between accounts never increases the sum of the two accounts' accrued-and-pending supply rewards.", "quantifier": "all transfers and reward states", "why_tests_cant": "all interleavings of accrual and transfer", "anchors": ["pallets/loans/src/ptoken.rs:do_transfer_ptokens", "pallets/loans/src/farming.rs:distribute_supplier_reward"]}
{"id": "C35", "title": "Governance market parameters keep every liquidation executable", "statement": "For every market configuration accepted by the governance calls, liquidation arithmetic cannot panic.", "quantifier": "all accepted market configurations", "why_tests_cant": "full parameter space of update_market", "anchors": ["pallets/loans/src/lib.rs:update_market", "pallets/loans/src/lib.rs:add_market", "pallets/loans/src/lib.rs:liquidated_transfer"]}
{"id": "C36", "title": "Repaying reduces exactly the debt repaid", "statement": "repay_borrow of amount a reduces the caller's current debt by exactly a (never below zero), moves exactly a to the market account; repay_borrow_all leaves the debt at zero.", "quantifier": "all states and amounts", "why_tests_cant": "all accrued-index states", "anchors": ["pallets/loans/src/lib.rs:repay_borrow", "pallets/loans/src/lib.rs:repay_borrow_all", "pallets/loans/src/lib.rs:do_repay_borrow_with_amount"]}
{"id": "C37", "title": "Liquid-staking exchange rate never decreases", "statement": "The exchange rate between the liquid token and the staked token never decreases under any sequence of calls.", "quantifier": "all histories", "why_tests_cant": "all histories", "anchors": ["pallets/liquid-staking/src/lib.rs:do_update_exchange_rate"]}
{"id": "C38", "title": "Liquid-staking matching conserves flow", "statement": "The bond/rebond/unbond amounts computed at an era change satisfy bond + rebond - unbond = available stake - available unstake, never use both bond and unbond, and rebond at most what is unbonding; consuming them keeps reserved <= total.", "quantifier": "all pool states and unbonding amounts", "why_tests_cant": "all u128 pool states", "anchors": ["pallets/liquid-staking/src/types.rs:MatchingLedger", "pallets/liquid-staking/src/types.rs:matching"]}
{"id": "C39", "title": "Unstaking queue pays exactly the due chunks", "statement": "claim_for pays exactly the sum of the user's chunks whose target era has arrived, keeps the others, and can never pay the same chunk twice; no chunk matures before the bonding duration has passed.", "quantifier": "all users, eras, unstake sequences", "why_tests_cant": "all schedules", "anchors": ["pallets/liquid-staking/src/lib.rs:claim_for", "pallets/liquid-staking/src/lib.rs:unstake"]}
{"id": "C40", "title": "Local staking ledger stays consistent", "statement": "In a staking ledger, total = active + sum of unlocking chunks is preserved by bond_extra, unbond, rebond and consolidate; rebond never exceeds the requested value nor what is unlocking, and takes from the most recent chunks first.", "quantifier": "all ledgers and values", "why_tests_cant": "arbitrary chunk lists", "anchors": ["pallets/liquid-staking/src/types.rs:StakingLedger"]}
{"id": "C41", "title": "Stake distribution respects amount and caps", "statement": "The strategies that split a bond/unbond/rebond amount over derivative accounts never hand out more than the amount, never exceed the per-account cap, never leave an account below the minimum bond.", "quantifier": "all ledger sets and amounts", "why_tests_cant": "arbitrary account sets", "anchors": ["pallets/liquid-staking/src/distribution.rs"]}
{"id": "C42", "title": "Nothing blocks a due withdrawal or an allowed cancellation", "statement": "If a stream is running, its recipient can always withdraw any amount up to what has accrued and its sender can always cancel it when it is cancellable: bookkeeping (list bounds, pruning of finished streams, arithmetic) never makes these calls fail; only a refused token transfer can.", "quantifier": "all reachable states, streams, amounts and times", "why_tests_cant": "needs every combination of full lists, prunings and rounding", "anchors": ["pallets/streaming/src/lib.rs:withdraw", "pallets/streaming/src/lib.rs:cancel", "pallets/streaming/src/lib.rs:update_finished_stream_library"]}
{"id": "C43", "title": "A created stream is exactly what was asked for", "statement": "A successful create takes exactly the deposit from the caller, registers under a fresh id a stream with the requested parties, asset, times and flag, whose rate is deposit/duration rounded down and non-zero, lists it for both parties, and requires the minimum deposit and start <= now < stop ordering.", "quantifier": "all callers, parameters and states", "why_tests_cant": "all states and parameters", "anchors": ["pallets/streaming/src/lib.rs:create", "pallets/streaming/src/lib.rs:do_create"]}
{"id": "C44", "title": "The creation event describes the stream", "statement": "The StreamCreated event of a stream reports its parties, deposit, asset, times and whether it can be cancelled.", "quantifier": "all create calls", "why_tests_cant": "all parameters, in particular cancellable = false", "anchors": ["pallets/streaming/src/lib.rs:do_create"]}
{"id": "C45", "title": "Farming withdrawals and claims are never blocked", "statement": "A staker can always redeem cooled-down amounts, withdraw unlocked principal and claim rewards: no arithmetic or bookkeeping condition can make these calls fail while the pool is unlocked and lock slots are free.", "quantifier": "all reachable states, users and amounts", "why_tests_cant": "needs extreme accumulators and every history", "anchors": ["pallets/farming/src/lib.rs:withdraw", "pallets/farming/src/lib.rs:redeem", "pallets/farming/src/lib.rs:claim", "pallets/farming/src/types.rs:reward_per_share"]}
{"id": "C46", "title": "Dispatched rewards reach the stakers", "statement": "dispatch_reward charges the payer exactly the amount, keeps everybody's accrued rewards, re-spreads leftover plus new amount over the new duration; everything dispatched can eventually be claimed by stakers.", "quantifier": "all states, amounts, durations", "why_tests_cant": "rounding of rate and accumulator in every state", "anchors": ["pallets/farming/src/lib.rs:dispatch_reward", "pallets/farming/src/types.rs:reward_per_share"]}
{"id": "C47", "title": "Farming positions are private", "statement": "A user's position in a pool changes only by that user's own deposit, withdraw, redeem or claim; deposit moves exactly the amount and preserves the accrued reward.", "quantifier": "all users, pools and calls by anybody", "why_tests_cant": "frame property over all calls", "anchors": ["pallets/farming/src/lib.rs:deposit", "pallets/farming/src/lib.rs:withdraw", "pallets/farming/src/lib.rs:redeem", "pallets/farming/src/lib.rs:claim"]}
{"id": "C48", "title": "Parameters change only through the configured origins", "statement": "Market parameters, protocol fees and receivers, new exchange pools, farming pool settings, minimum stream deposits, lending reserves and the liquid-staking parameters, ledgers, eras and reserves change only by a governance call made with the origin the runtime configures for it; every other call leaves them as they are.", "quantifier": "all calls, origins and states", "why_tests_cant": "frame property over every call of five pallets", "anchors": ["pallets/amm/src/lib.rs:update_protocol_fee", "pallets/amm/src/lib.rs:create_pool", "pallets/farming/src/lib.rs:set_pool_cool_down_duration", "pallets/streaming/src/lib.rs:set_minimum_deposit", "pallets/loans/src/lib.rs:update_market", "pallets/loans/src/lib.rs:reduce_reserves"]}
{"id": "C49", "title": "Lending reserves and vouchers are always covered", "statement": "In every reachable state a market's reserves are at most its cash plus its loans, and all vouchers together at the exchange rate are worth at most cash plus loans minus reserves.", "quantifier": "all histories, markets, prices", "why_tests_cant": "invariant over all histories incl. rounding", "anchors": ["pallets/loans/src/interest.rs:exchange_rate", "pallets/loans/src/lib.rs:do_mint", "pallets/loans/src/lib.rs:do_redeem_voucher", "pallets/loans/src/lib.rs:reduce_reserves"]}
{"id": "C50", "title": "Lending positions are private", "statement": "A debt changes only by its owner's borrow/repay or a liquidation of that owner in that market; a voucher balance falls only by its owner's redeem or transfer, governance's forced redeem, or a liquidation of that owner seizing that collateral.", "quantifier": "all calls by anybody", "why_tests_cant": "frame property over all calls", "anchors": ["pallets/loans/src/lib.rs:borrow", "pallets/loans/src/lib.rs:repay_borrow", "pallets/loans/src/lib.rs:redeem", "pallets/loans/src/lib.rs:liquidate_borrow", "pallets/loans/src/ptoken.rs:transfer"]}
{"id": "C51", "title": "Supplying and redeeming are exact and a round trip never gains", "statement": "mint takes exactly the amount and gives amount/rate vouchers rounded down (at least one); redeem burns amount/rate vouchers and pays at most the amount; supplying and redeeming everything at once gains at most the rounding of the exchange rate (one part in 1.5*10^16).", "quantifier": "all states and amounts", "why_tests_cant": "rounding in every state", "anchors": ["pallets/loans/src/lib.rs:do_mint", "pallets/loans/src/lib.rs:do_redeem", "pallets/loans/src/lib.rs:redeem_all"]}
{"id": "C52", "title": "Staking is exact", "statement": "A successful stake takes exactly the amount: the XCM fee goes to the fee account, the rest to the pallet, the configured reserve share is set aside, the remainder enters the matching pool and buys liquid tokens at the stored exchange rate rounded down; the market cap is respected.", "quantifier": "all callers, amounts and reachable states", "why_tests_cant": "exact effect in every state", "anchors": ["pallets/liquid-staking/src/lib.rs:stake", "pallets/liquid-staking/src/lib.rs:staking_to_liquid", "pallets/liquid-staking/src/lib.rs:ensure_market_cap"]}
{"id": "C53", "title": "Unstaking is exact", "statement": "A successful unstake takes exactly the amount of liquid tokens, credits the reserve share to the pallet, burns the rest and owes its value at the stored rate: queued for the caller (relay chain), or paid at once minus the instant-unstake fee out of a loan while the value is queued for the lending pallet.", "quantifier": "all callers, amounts, providers and reachable states", "why_tests_cant": "exact effect in every state", "anchors": ["pallets/liquid-staking/src/lib.rs:unstake", "pallets/liquid-staking/src/lib.rs:do_loans_instant_unstake"]}
{"id": "C54", "title": "Fast unstaking is exact", "statement": "A fast-unstake request moves no token and never exceeds what the caller can spend; matching a request pays exactly the burnt tokens' value at the stored rate from unreserved stake and charges the matching fee; cancelling lowers only the request.", "quantifier": "all requests, match lists and reachable states", "why_tests_cant": "exact effect in every state", "anchors": ["pallets/liquid-staking/src/lib.rs:do_fast_match_unstake", "pallets/liquid-staking/src/lib.rs:cancel_unstake", "pallets/liquid-staking/src/lib.rs:unstake"]}
{"id": "C55", "title": "The liquid-staking pallet holds its reserves and pending stake", "statement": "In every reachable state the pallet account holds at least the reserves plus everything that waits to be bonded.", "quantifier": "all histories", "why_tests_cant": "invariant over all histories", "anchors": ["pallets/liquid-staking/src/lib.rs:stake", "pallets/liquid-staking/src/lib.rs:do_notification_received", "pallets/liquid-staking/src/lib.rs:claim_for", "pallets/liquid-staking/src/lib.rs:reduce_reserves"]}
{"id": "C56", "title": "Everything promised to unstakers is covered", "statement": "In every reachable state the sum of all unstaking queues is at most the pallet's free tokens plus the stake that is unlocking plus the unstake amounts still to be matched.", "quantifier": "all histories in which governance does not shrink a ledger's unlocking stake", "why_tests_cant": "invariant over all histories", "anchors": ["pallets/liquid-staking/src/lib.rs:unstake", "pallets/liquid-staking/src/lib.rs:claim_for", "pallets/liquid-staking/src/lib.rs:do_notification_received"]}
{"id": "C57", "title": "Liquid tokens are backed by stake", "statement": "In every reachable state all liquid tokens at the stored exchange rate are worth at most the active stake plus what waits to be bonded minus what waits to be unbonded.", "quantifier": "all histories", "why_tests_cant": "invariant over all histories incl. relay-chain responses", "anchors": ["pallets/liquid-staking/src/lib.rs:do_update_exchange_rate", "pallets/liquid-staking/src/lib.rs:do_notification_received", "pallets/liquid-staking/src/lib.rs:set_staking_ledger"]}
{"id": "C58", "title": "Reserved amounts are exactly the pending requests", "statement": "In every reachable state the reserved part of the matching pool equals the sum over pending relay-chain requests, and every request names a configured derivative account and a past query id.", "quantifier": "all histories", "why_tests_cant": "invariant over all histories", "anchors": ["pallets/liquid-staking/src/lib.rs:do_bond", "pallets/liquid-staking/src/lib.rs:do_unbond", "pallets/liquid-staking/src/lib.rs:do_rebond", "pallets/liquid-staking/src/types.rs:MatchingLedger"]}
{"id": "C59", "title": "A failed relay-chain request is undone", "statement": "When the relay chain reports that a request failed, the request is closed and what it reserved becomes available again.", "quantifier": "all pending requests and responses", "why_tests_cant": "needs every request in every state", "anchors": ["pallets/liquid-staking/src/lib.rs:do_notification_received"]}
{"id": "C60", "title": "Liquid staking keeps lending intact", "statement": "Every state of the lending pallet reached through liquid staking (instant unstakes, claims that repay the loan) is one lending can reach by its own calls, so all lending guarantees continue to hold.", "quantifier": "all histories of both pallets", "why_tests_cant": "composition over all interleavings", "anchors": ["pallets/liquid-staking/src/lib.rs:do_loans_instant_unstake", "pallets/liquid-staking/src/lib.rs:do_claim_for"]}
{"id": "C61", "title": "Unstake reserves are held", "statement": "The accounted unstake reserves never exceed the liquid tokens the pallet holds.", "quantifier": "all histories", "why_tests_cant": "all mixes of providers", "anchors": ["pallets/liquid-staking/src/lib.rs:unstake", "pallets/liquid-staking/src/lib.rs:reduce_unstake_reserves"]}
{"id": "C62", "title": "A relay-chain response never panics", "statement": "Processing a response of the relay chain never panics.", "quantifier": "all responses in all reachable states", "why_tests_cant": "needs duplicate and late responses in every state", "anchors": ["pallets/liquid-staking/src/lib.rs:do_notification_received", "pallets/liquid-staking/src/types.rs:StakingLedger"]}
{"id": "C63", "title": "Eras advance", "statement": "The block hook succeeds and advances the era by the number of elapsed era lengths, whatever the matching pool and the ledgers hold.", "quantifier": "all reachable states and relay-chain blocks", "why_tests_cant": "all states", "anchors": ["pallets/liquid-staking/src/lib.rs:on_initialize", "pallets/liquid-staking/src/lib.rs:do_matching", "pallets/liquid-staking/src/lib.rs:do_advance_era"]}
{"id": "C64", "title": "Bridge settles a transfer at most once", "statement": "A cross-chain transfer (source chain, nonce) is settled - paid out or rejected - at most once while its source chain stays registered; after settlement no vote on it succeeds; has_bridged answers exactly whether it was settled.", "quantifier": "all histories of votes, registrations, membership changes and blocks; all chains and nonces", "why_tests_cant": "the settled set is a compressed interval list updated in every order of nonces", "anchors": ["pallets/bridge/src/lib.rs:materialize", "pallets/bridge/src/lib.rs:has_bridged", "pallets/bridge/src/lib.rs:update_bridge_registry", "pallets/bridge/src/lib.rs:merge_overlapping_intervals"]}
{"id": "C65", "title": "Bridge payouts need the vote threshold", "statement": "Every payout is backed by at least vote_threshold distinct voters who voted for exactly this token, recipient and amount of this transfer, each less than one proposal lifetime ago; after a change of the relayer set this is at least the configured percentage of the relayers.", "quantifier": "all histories and interleavings of votes", "why_tests_cant": "all vote orders, expiries and membership changes", "anchors": ["pallets/bridge/src/lib.rs:materialize", "pallets/bridge/src/lib.rs:resolve_proposal", "pallets/bridge/src/types.rs:Proposal"]}
{"id": "C66", "title": "Only relayers vote on the bridge, once each", "statement": "Every recorded vote was cast by an account that was a relayer at that moment (or by root, as the root operator); nobody votes twice on one proposal, for or against; outsiders cannot vote.", "quantifier": "all callers, states and proposals", "why_tests_cant": "all callers in all states", "anchors": ["pallets/bridge/src/lib.rs:materialize", "pallets/bridge/src/lib.rs:ensure_relay_member", "pallets/bridge/src/types.rs:Proposal"]}
{"id": "C67", "title": "Bridge payouts are exact", "statement": "A payout credits the recipient exactly the amount voted on, minted if the token is foreign, out of the bridge account if it is locked here; the only other movement is a native bonus from the gift account; a vote that does not pay out moves nothing.", "quantifier": "all payouts in all reachable states", "why_tests_cant": "conservation in every state for every asset and account", "anchors": ["pallets/bridge/src/lib.rs:execute_materialize", "pallets/bridge/src/lib.rs:grant_incentive_bonus"]}
{"id": "C68", "title": "Vote threshold follows the relayer set", "statement": "After the relayer set changes to a non-empty set, the threshold is the least number of votes that is at least the configured percentage of the set, between 1 and the number of relayers; no other call changes it.", "quantifier": "all relayer sets and percentages", "why_tests_cant": "all set sizes and percentages", "anchors": ["pallets/bridge/src/lib.rs:change_vote_threshold", "pallets/bridge/src/lib.rs:ensure_valid_threshold"]}
{"id": "C69", "title": "Bridge caps bound the flow", "statement": "The in/out counters of a token equal what was bridged in/out since they were last cleaned, and no teleport or payout takes the counter beyond the cap.", "quantifier": "all histories", "why_tests_cant": "sum over histories", "anchors": ["pallets/bridge/src/lib.rs:ensure_under_bridge_cap", "pallets/bridge/src/lib.rs:update_bridge_token_cap", "pallets/bridge/src/lib.rs:clean_cap_accumulated_value"]}
{"id": "C70", "title": "Teleports are exact and their nonces have no gaps", "statement": "A successful teleport takes exactly the amount from the sender, leaves the fee of a foreign token (resp. the whole amount of a locked one) on the bridge account, burns the rest, and announces amount minus fee under the next nonce; the nonces announced towards a chain since it was registered are 1,2,...,k.", "quantifier": "all calls and histories", "why_tests_cant": "order and conservation over all histories", "anchors": ["pallets/bridge/src/lib.rs:teleport", "pallets/bridge/src/lib.rs:teleport_internal", "pallets/bridge/src/lib.rs:bump_nonce"]}
{"id": "C71", "title": "Locked tokens stay backed", "statement": "Over any history the bridge account's holding of an asset grows by at least what was locked and paid in fees minus the payouts of locked tokens.", "quantifier": "all histories and assets", "why_tests_cant": "sum over histories", "anchors": ["pallets/bridge/src/lib.rs:teleport_internal", "pallets/bridge/src/lib.rs:execute_materialize"]}
{"id": "C72", "title": "Disabled means disabled", "statement": "Teleports and votes succeed only for a registered chain and a registered, enabled token.", "quantifier": "all states and calls", "why_tests_cant": "all states", "anchors": ["pallets/bridge/src/lib.rs:ensure_bridge_token_registered", "pallets/bridge/src/lib.rs:set_bridge_token_status", "pallets/bridge/src/lib.rs:ensure_chain_registered"]}
{"id": "C73", "title": "Expired proposals are dropped, live ones kept", "statement": "A vote on an existing proposal succeeds only if it is undecided and not expired; at the start of each block exactly the expired proposals are dropped.", "quantifier": "all proposals and blocks", "why_tests_cant": "all block numbers relative to expiry", "anchors": ["pallets/bridge/src/lib.rs:on_initialize", "pallets/bridge/src/types.rs:Proposal"]}
{"id": "C74", "title": "A transfer is rejected only by enough votes against", "statement": "A transfer is rejected only when so many distinct voters voted against one payload of it within its lifetime that fewer than the threshold of the relayers remain; rejection moves no tokens.", "quantifier": "all histories of votes", "why_tests_cant": "all vote orders", "anchors": ["pallets/bridge/src/lib.rs:resolve_proposal", "pallets/bridge/src/lib.rs:cancel_materialize", "pallets/bridge/src/types.rs:Proposal"]}
{"id": "C75", "title": "Bridge registrations are consistent and governed", "statement": "Token ids and assets correspond one to one, the own chain is never registered, and only the configured origins can change chains, tokens, fees, caps, status or clean counters.", "quantifier": "all histories, all callers", "why_tests_cant": "invariant over all histories", "anchors": ["pallets/bridge/src/lib.rs:register_chain", "pallets/bridge/src/lib.rs:register_bridge_token", "pallets/bridge/src/lib.rs:set_bridge_token_cap"]}
{"id": "C76", "title": "The bridge bonus tops up exactly", "statement": "A payout changes native balances beyond the transfer only by topping the recipient up to the existential deposit plus the gift, and only when the recipient had less than the gift and the gift account at least the gift.", "quantifier": "all payouts", "why_tests_cant": "all balances", "anchors": ["pallets/bridge/src/lib.rs:grant_incentive_bonus"]}
{"id": "C77", "title": "A relayer's vote on an open transfer is accepted", "statement": "A vote by a relayer who has not voted yet on an open, unexpired proposal of an unsettled transfer, for an enabled token within its cap, succeeds (and pays if it is the deciding one), without panic.", "quantifier": "all states, relayers and transfers", "why_tests_cant": "liveness in every state", "anchors": ["pallets/bridge/src/lib.rs:materialize", "pallets/bridge/src/lib.rs:update_bridge_registry"]}
{"id": "C78", "title": "Swap output is exact", "statement": "A swap pays the largest output that keeps the product of reserves (after the rounded-up liquidity fee) from falling, and it is what the quote get_amounts_out announces for the same amount.", "quantifier": "all amounts and reachable pools", "why_tests_cant": "every amount and reserve value, rounding in both directions", "anchors": ["pallets/amm/src/lib.rs:do_swap", "pallets/amm/src/lib.rs:get_amount_out", "pallets/amm/src/lib.rs:get_amounts_out"]}
{"id": "C79", "title": "Adding liquidity and creating pools is exact", "statement": "A provider pays exactly one of the desired amounts in full and the other at the pool's ratio (rounded down), and receives exactly the proportional liquidity tokens; a new pool mints sqrt(x*y), of which the minimum is locked and the rest goes to the receiver.", "quantifier": "all amounts and reachable pools", "why_tests_cant": "all amounts and reserves", "anchors": ["pallets/amm/src/lib.rs:do_add_liquidity", "pallets/amm/src/lib.rs:get_ideal_amounts", "pallets/amm/src/lib.rs:create_pool"]}
{"id": "C80", "title": "Swaps succeed", "statement": "A swap of an affordable amount in an existing pool, large enough to pay a fee and small enough to fit 128 bits, succeeds.", "quantifier": "all reachable pools, callers, amounts and blocks", "why_tests_cant": "liveness in every state, including the price accumulators of old pools", "anchors": ["pallets/amm/src/lib.rs:do_swap", "pallets/amm/src/lib.rs:do_update_oracle"]}
{"id": "C81", "title": "Liquidity providers can leave and join", "statement": "A provider can always take out any part of the liquidity tokens it holds, and join with affordable amounts.", "quantifier": "all reachable pools, providers and amounts", "why_tests_cant": "liveness in every state and for every protocol fee setting", "anchors": ["pallets/amm/src/lib.rs:remove_liquidity", "pallets/amm/src/lib.rs:add_liquidity", "pallets/amm/src/lib.rs:do_mint_protocol_fee"]}
{"id": "C82", "title": "The protocol takes its configured share of the growth", "statement": "The liquidity tokens minted for the protocol are worth at most the configured fraction of the pool's growth since the last update.", "quantifier": "all reachable pools and fee settings", "why_tests_cant": "all growths, supplies and fractions", "anchors": ["pallets/amm/src/lib.rs:do_mint_protocol_fee", "pallets/amm/src/lib.rs:update_protocol_fee"]}
{"id": "C83", "title": "Teleports go through", "statement": "A user who holds the tokens can send them: with a registered destination, an enabled token, an amount that covers the fee and fits the cap, teleport succeeds.", "quantifier": "all states, users and amounts", "why_tests_cant": "liveness in every state", "anchors": ["pallets/bridge/src/lib.rs:teleport", "pallets/bridge/src/lib.rs:teleport_internal"]}
{"id": "C84", "title": "Crowdloan contributions are backed", "statement": "At any time the crowdloan pallet account holds at least the relay tokens of all contributions that wait or are in flight.", "quantifier": "all histories of all calls, relay-chain answers and blocks", "why_tests_cant": "conservation over every history", "anchors": ["pallets/crowdloans/src/lib.rs:contribute", "pallets/crowdloans/src/lib.rs:do_migrate_contribution", "pallets/crowdloans/src/lib.rs:do_notification_received"]}
{"id": "C85", "title": "Crowdloan books add up", "statement": "The pending and in-flight totals of every vault are the sums of its per-account entries; every entry is positive and belongs to exactly one existing vault.", "quantifier": "all histories", "why_tests_cant": "sums over child tries in every history", "anchors": ["pallets/crowdloans/src/lib.rs:do_update_contribution", "pallets/crowdloans/src/lib.rs:Vaults", "pallets/crowdloans/src/types.rs:Vault"]}
{"id": "C86", "title": "Crowdloan derivatives are backed", "statement": "For every derivative token, issuance plus contributions not yet claimed equals what its vaults have lent to the relay chain; with one vault per token, that vault covers all of it.", "quantifier": "all histories", "why_tests_cant": "sum over vaults in every history", "anchors": ["pallets/crowdloans/src/lib.rs:claim", "pallets/crowdloans/src/lib.rs:redeem", "pallets/crowdloans/src/lib.rs:withdraw"]}
{"id": "C87", "title": "Crowdloans neither create nor destroy relay-token claims", "statement": "Relay-token issuance plus what the vaults have lent changes only by the XCM fee of each message.", "quantifier": "all calls in all reachable states", "why_tests_cant": "conservation for every call", "anchors": ["pallets/crowdloans/src/lib.rs:do_notification_received", "pallets/crowdloans/src/lib.rs:withdraw", "pallets/crowdloans/src/lib.rs:redeem", "pallets/crowdloans/src/lib.rs:refund"]}
{"id": "C88", "title": "contribute is exact and capped", "statement": "A successful contribute needs the current, open, unexpired vault of the para, takes exactly the amount, books it once (waiting before the opening, in flight with one request afterwards) and never lets the vault exceed its cap; no other call raises what a vault collected.", "quantifier": "all calls and histories", "why_tests_cant": "all phases, caps and interleavings", "anchors": ["pallets/crowdloans/src/lib.rs:contribute", "pallets/crowdloans/src/lib.rs:do_contribute"]}
{"id": "C89", "title": "The relay chain's answer settles exactly one contribution", "statement": "The answer to a contribution request moves that entry from in flight to contributed and burns the tokens (success), or pays it back to its contributor (failure); a settled request cannot be settled again.", "quantifier": "all answers in all reachable states", "why_tests_cant": "all orders and duplicates of answers", "anchors": ["pallets/crowdloans/src/lib.rs:notification_received", "pallets/crowdloans/src/lib.rs:do_notification_received"]}
{"id": "C90", "title": "claim pays one for one, once", "statement": "A claim mints derivative tokens one for one for the whole contribution of the account, removes the entry (so there is no second claim), and pays the bonus as a stream to that account; streaming stays consistent.", "quantifier": "all calls in all reachable states", "why_tests_cant": "all amounts, all histories", "anchors": ["pallets/crowdloans/src/lib.rs:claim", "pallets/crowdloans/src/lib.rs:claim_for", "pallets/crowdloans/src/lib.rs:do_claim_for"]}
{"id": "C91", "title": "withdraw is exact", "statement": "After a failed auction withdraw pays back exactly the contribution of the account and removes it.", "quantifier": "all calls in all states", "why_tests_cant": "all amounts, all histories", "anchors": ["pallets/crowdloans/src/lib.rs:withdraw", "pallets/crowdloans/src/lib.rs:do_withdraw_for"]}
{"id": "C92", "title": "redeem is exact", "statement": "After the lease redeem burns exactly the amount of derivative tokens and pays the same amount of relay tokens.", "quantifier": "all calls in all reachable states", "why_tests_cant": "all amounts", "anchors": ["pallets/crowdloans/src/lib.rs:redeem"]}
{"id": "C93", "title": "Contributors can get in and out", "statement": "Contributions within cap and time, withdrawals after a failure, claims after a success and redemptions after expiry succeed.", "quantifier": "all reachable states and accounts", "why_tests_cant": "liveness in every state", "anchors": ["pallets/crowdloans/src/lib.rs:contribute", "pallets/crowdloans/src/lib.rs:withdraw", "pallets/crowdloans/src/lib.rs:claim", "pallets/crowdloans/src/lib.rs:redeem"]}
{"id": "C94", "title": "Vault phases follow the life cycle", "statement": "A vault's phase changes only by the call meant for it, from one phase to the next; Failed and Expired are reached only through the relay chain's answer to a withdrawal; success is final.", "quantifier": "all calls in all reachable states", "why_tests_cant": "all orders of calls and late answers", "anchors": ["pallets/crowdloans/src/lib.rs:open", "pallets/crowdloans/src/lib.rs:close", "pallets/crowdloans/src/lib.rs:reopen", "pallets/crowdloans/src/lib.rs:auction_succeeded", "pallets/crowdloans/src/lib.rs:auction_failed", "pallets/crowdloans/src/lib.rs:do_notification_received"]}
{"id": "C95", "title": "Refunds are exact", "statement": "A refund pays every account exactly what leaves its entries of that vault, only in phases Closed and Failed; governance's single refund pays exactly the named amount from the named book.", "quantifier": "all calls in all reachable states", "why_tests_cant": "all books and key limits", "anchors": ["pallets/crowdloans/src/lib.rs:refund", "pallets/crowdloans/src/lib.rs:refund_for"]}
{"id": "C96", "title": "Only empty, finished vaults are dissolved", "statement": "dissolve_vault succeeds only for a vault that is closed, failed or expired, with nothing collected and no entries, and then forgets it.", "quantifier": "all calls in all reachable states", "why_tests_cant": "all states", "anchors": ["pallets/crowdloans/src/lib.rs:dissolve_vault"]}
{"id": "C97", "title": "Crowdloan administration is governed", "statement": "Vault creation, updates, phase changes, refunds, forced claims and bonuses succeed only for the configured origin or an automation member; answers only from the relay-chain response or the update origin.", "quantifier": "all calls, callers and states", "why_tests_cant": "all callers in all states", "anchors": ["pallets/crowdloans/src/lib.rs:force_claim_for", "pallets/crowdloans/src/lib.rs:notification_received", "pallets/crowdloans/src/lib.rs:update_proxy"]}
{"id": "C98", "title": "One live vault per para, one token per lease", "statement": "A para has at most one vault that is not Failed or Expired, and it is the current one; the derivative token of a lease never changes and all its vaults use it.", "quantifier": "all histories", "why_tests_cant": "invariant over all histories", "anchors": ["pallets/crowdloans/src/lib.rs:create_vault", "pallets/crowdloans/src/lib.rs:CTokensRegistry", "pallets/crowdloans/src/lib.rs:LeasesRegistry"]}
{"id": "C99", "title": "The reported lease term rate is a monotone fraction", "statement": "The term rate of a lease lies between 0 and 1, never falls as relay blocks pass, and is the elapsed fraction of the lease.", "quantifier": "all leases and relay blocks", "why_tests_cant": "all block numbers", "anchors": ["pallets/crowdloans/src/lib.rs:get_vault_term_rate", "pallets/crowdloans/src/lib.rs:get_exchange_rate"]}
{"id": "C100", "title": "migrate_pending moves exactly what it sends", "statement": "migrate_pending turns waiting contributions, one message each, into in-flight ones, up to the key limit, and changes nothing else.", "quantifier": "all reachable states", "why_tests_cant": "all books and limits", "anchors": ["pallets/crowdloans/src/lib.rs:migrate_pending", "pallets/crowdloans/src/lib.rs:do_migrate_contribution"]}
{"id": "C101", "title": "The bonus is exact", "statement": "The bonus of a claim is the contribution times the bonus per token, converted between the decimals of the two tokens.", "quantifier": "all amounts and decimals", "why_tests_cant": "all amounts", "anchors": ["pallets/crowdloans/src/lib.rs:normalized_amount", "pallets/crowdloans/src/lib.rs:do_claim_for"]}
{"id": "C102", "title": "Nobody loses through a crowdloan call", "statement": "For every account, relay tokens plus derivative tokens plus entries in the contribution books are the same before and after every crowdloan call and answer (apart from the XCM fee account and the account whose redemption governance lends).", "quantifier": "all calls, callers and answers in all reachable states", "why_tests_cant": "conservation per account over all histories", "anchors": ["pallets/crowdloans/src/lib.rs:contribute", "pallets/crowdloans/src/lib.rs:withdraw", "pallets/crowdloans/src/lib.rs:claim", "pallets/crowdloans/src/lib.rs:redeem", "pallets/crowdloans/src/lib.rs:refund", "pallets/crowdloans/src/lib.rs:do_notification_received"]}
{"id": "C103", "title": "Liquid-staking parameters are set exactly and in range", "statement": "The reserve factor, unstake reserve factor, commission and ledger cap can be set by the update origin to exactly the values in range (0..1 exclusive, resp. non-zero), each call sets just that value; reduce_reserves and reduce_unstake_reserves pay exactly the amount, never more than the accounted reserves.", "quantifier": "all callers, values and states", "why_tests_cant": "all values and states", "anchors": ["pallets/liquid-staking/src/lib.rs:update_reserve_factor", "pallets/liquid-staking/src/lib.rs:update_commission_rate", "pallets/liquid-staking/src/lib.rs:update_staking_ledger_cap", "pallets/liquid-staking/src/lib.rs:reduce_reserves"]}
{"id": "C104", "title": "Crowdloan administration does exactly what it says", "statement": "create_vault succeeds exactly for an administrator, a non-zero cap, an ordered lease with this token, a fresh vault key, an ended predecessor and an end block not passed, and creates an empty pending vault with these limits as the current one; update_vault changes just the given limits of the current vault; bonus, proxy, VRF flag and fees are set exactly.", "quantifier": "all callers, parameters and states", "why_tests_cant": "all parameter and state combinations", "anchors": ["pallets/crowdloans/src/lib.rs:create_vault", "pallets/crowdloans/src/lib.rs:update_vault", "pallets/crowdloans/src/lib.rs:update_leases_bonus", "pallets/crowdloans/src/lib.rs:update_proxy", "pallets/crowdloans/src/lib.rs:set_vrf"]}
{"id": "C105", "title": "An emergency price is in force until reset", "statement": "A price set by the feeder origin is exactly what the asset is priced at, whatever the oracle says, until it is reset; then prices are as before. No other asset's price changes, and nobody else can set prices.", "quantifier": "all prices, assets, decimals and oracle answers", "why_tests_cant": "all values and oracle states", "anchors": ["pallets/prices/src/lib.rs:set_price", "pallets/prices/src/lib.rs:reset_price", "pallets/prices/src/lib.rs:get_price", "pallets/prices/src/lib.rs:get_emergency_price"]}
{"id": "C106", "title": "Oracle prices are converted exactly", "statement": "An ordinary asset's price per smallest unit is the oracle's price scaled by its decimals, rounded down, with the oracle's timestamp; no oracle price means no price.", "quantifier": "all prices and decimals", "why_tests_cant": "all values", "anchors": ["pallets/prices/src/lib.rs:get_price", "pallets/prices/src/lib.rs:normalize_detail_price"]}
{"id": "C107", "title": "The liquid token is priced by its exchange rate", "statement": "The liquid token's price is the relay token's price times the staking exchange rate, rounded down; over any staking history at a constant relay price it never falls.", "quantifier": "all rates, prices and staking histories", "why_tests_cant": "all histories of another pallet", "anchors": ["pallets/prices/src/lib.rs:get_special_asset_price", "pallets/prices/src/lib.rs:get_staking_asset_price"]}
{"id": "C108", "title": "LP tokens are priced by the geometric mean", "statement": "The price of a vault pool's LP token is the vault token's price times twice the root of the product of the reserves per LP token; a swap never lowers it and no pool reachable in the AMM makes the query panic.", "quantifier": "all reachable AMM pools and swaps", "why_tests_cant": "all reserves and histories", "anchors": ["pallets/prices/src/lib.rs:get_lp_vault_asset_price", "pallets/prices/src/lib.rs:get_special_asset_price"]}
{"id": "C109", "title": "Foreign tokens are priced like the token they stand for", "statement": "A token registered as foreign for a special token is priced like that token in its own decimals, and every price query ends.", "quantifier": "all registrations", "why_tests_cant": "recursion over all registration chains", "anchors": ["pallets/prices/src/lib.rs:set_foreign_asset", "pallets/prices/src/lib.rs:get_special_asset_price"]}
{"id": "C110", "title": "Emergency shutdown stops exactly what it names", "statement": "A call not dispatched by root runs only if it is whitelisted or it is allowed and neither its pallet nor itself is switched off; only governance switches, a toggle changes only the named flag, twice restores it, and governance can always undo a shutdown.", "quantifier": "all calls, origins and shutdown states", "why_tests_cant": "all combinations of flags, callers and nested calls", "anchors": ["pallets/emergency-shutdown/src/lib.rs:toggle_pallet", "pallets/emergency-shutdown/src/lib.rs:toggle_call", "pallets/emergency-shutdown/src/lib.rs:contains", "runtime/parallel/src/lib.rs:BaseCallFilter", "runtime/parallel/src/lib.rs:WhiteListFilter"]}
{"id": "C111", "title": "An EVM-signed call does exactly its call", "statement": "A successful EVM-signed call raises the signer's nonce by one, moves exactly the fee from the signer to the treasury and runs the inner call in the signer's name; if that fails only fee and nonce remain; otherwise nothing changes. It is accepted whenever nonce and signature are right and the fee is payable.", "quantifier": "all calls, signers, nonces and states", "why_tests_cant": "all inner calls and states", "anchors": ["pallets/evm-signatures/src/lib.rs:call"]}
{"id": "C112", "title": "Nobody acts for an account without its signature", "statement": "An unsigned transaction acts in the name of an account only with that account's signature over the chain's magic number, the account's current nonce and exactly that call.", "quantifier": "all transactions, byte strings and runtimes", "why_tests_cant": "all signatures and runtime configurations", "anchors": ["pallets/evm-signatures/src/lib.rs:valid_signature", "pallets/evm-signatures/src/lib.rs:call", "runtime/heiko/src/lib.rs:VerifySignature"]}
{"id": "C113", "title": "A signed call runs at most once", "statement": "Two executed transactions of the same account never have the same nonce, in any history.", "quantifier": "all histories of signed, EVM-signed and governance calls", "why_tests_cant": "all histories, including accounts that are emptied", "anchors": ["pallets/evm-signatures/src/lib.rs:call"]}
{"id": "C114", "title": "The pool accepts what will be executed and paid", "statement": "The transaction pool accepts exactly EVM-signed calls with the right nonce and signature; one accepted is executed and pays.", "quantifier": "all transactions and states", "why_tests_cant": "all states between acceptance and execution", "anchors": ["pallets/evm-signatures/src/lib.rs:validate_unsigned", "pallets/evm-signatures/src/lib.rs:pre_dispatch"]}
{"id": "C115", "title": "EVM withdrawals are exact and the owner's", "statement": "withdraw moves exactly the amount of the asset from the account of an EVM address to its owner's account, only for the owner, and succeeds when covered.", "quantifier": "all addresses, callers, assets and amounts", "why_tests_cant": "all callers and amounts", "anchors": ["pallets/evm-signatures/src/lib.rs:withdraw", "pallets/evm-signatures/src/lib.rs:transfer"]}
{"id": "C116", "title": "Fee assets are exactly those with a price", "statement": "In every state an asset type is accepted for fees exactly if it has a price per second; prices are set and removed exactly for the named type, by governance.", "quantifier": "all histories of registry calls", "why_tests_cant": "binary search over every list a history can produce", "anchors": ["pallets/asset-registry/src/lib.rs:payment_is_supported", "pallets/asset-registry/src/lib.rs:update_asset_units_per_second", "pallets/asset-registry/src/lib.rs:remove_fee_payment_asset"]}
{"id": "C117", "title": "Asset ids and asset types correspond one to one", "statement": "A type resolves only to the asset registered with it, and every registered asset's type resolves to it; each call changes just the named asset.", "quantifier": "all histories of registry calls", "why_tests_cant": "all orders of registrations and updates", "anchors": ["pallets/asset-registry/src/lib.rs:register_asset", "pallets/asset-registry/src/lib.rs:update_asset_type", "pallets/asset-registry/src/lib.rs:deregister_asset", "pallets/asset-registry/src/lib.rs:get_asset_id"]}
{"id": "C118", "title": "The currency adapter is one ledger", "statement": "Transfers, mints and burns through the adapter change exactly the named balances and issuance, for the native token and for every other asset alike.", "quantifier": "all assets, accounts and amounts", "why_tests_cant": "all assets on both sides of the split", "anchors": ["pallets/currency-adapter/src/lib.rs:transfer", "pallets/currency-adapter/src/lib.rs:mint_into", "pallets/currency-adapter/src/lib.rs:burn_from", "pallets/currency-adapter/src/lib.rs:balance"]}
{"id": "C119", "title": "Native locks are respected and governed", "statement": "Only the lock origin sets and removes locks, only on the native token; no operation takes native tokens below the owner's lock, other assets are never hindered, and unlocked tokens stay free.", "quantifier": "all operations, accounts and amounts", "why_tests_cant": "all amounts and lock states", "anchors": ["pallets/currency-adapter/src/lib.rs:force_set_lock", "pallets/currency-adapter/src/lib.rs:force_remove_lock"]}
{"id": "C120", "title": "StableSwap pools are backed", "statement": "In every reachable state the pallet account holds at least the sum of the reserves all pools record, per asset.", "quantifier": "all histories of creations, deposits, withdrawals, trades and outside transfers", "why_tests_cant": "solvency invariant over all histories", "anchors": ["pallets/stableswap/src/lib.rs:do_swap", "pallets/stableswap/src/lib.rs:do_add_liquidity", "pallets/stableswap/src/lib.rs:do_remove_liquidity"]}
{"id": "C121", "title": "A StableSwap trade moves exactly what it quotes", "statement": "A trade takes exactly the input, pays exactly the quoted output, moves the two reserves by these amounts and changes nothing else.", "quantifier": "all pools, amounts and callers", "why_tests_cant": "all states and amounts", "anchors": ["pallets/stableswap/src/lib.rs:do_swap", "pallets/stableswap/src/lib.rs:get_amounts_out"]}
{"id": "C122", "title": "StableSwap trades are fairly priced", "statement": "A trade keeps Curve's invariant of the pool up to rounding: nobody gets more than the curve gives, the scarce asset is dearer, trading back and forth never gains.", "quantifier": "all reserves and amounts", "why_tests_cant": "all reserves and amounts, including those beyond the u128 divisions", "anchors": ["pallets/stableswap/src/lib.rs:get_amount_out", "pallets/stableswap/src/helpers.rs:compute_base"]}
{"id": "C123", "title": "The value D of a pool is computed accurately", "statement": "compute_d returns Curve's D of the reserves up to a few units, for every pool, and exactly 2x for a balanced pool.", "quantifier": "all reserves and amplification coefficients", "why_tests_cant": "convergence and rounding of an iteration for all inputs", "anchors": ["pallets/stableswap/src/helpers.rs:compute_d", "pallets/stableswap/src/lib.rs:delta_util"]}
{"id": "C124", "title": "StableSwap deposits mint a fair share", "statement": "add_liquidity takes amounts between minimum and desired and mints LP tokens for exactly the growth they bring; joining and leaving at once never gains.", "quantifier": "all pools and amounts", "why_tests_cant": "all reserves and supplies", "anchors": ["pallets/stableswap/src/lib.rs:do_add_liquidity", "pallets/stableswap/src/lib.rs:do_get_liquidity", "pallets/stableswap/src/lib.rs:create_pool"]}
{"id": "C125", "title": "StableSwap withdrawals are pro rata", "statement": "remove_liquidity burns the caller's LP tokens and pays exactly their share of both reserves, rounded down; the protocol's fee tokens are the stated part of the growth of D.", "quantifier": "all pools, callers and amounts", "why_tests_cant": "all reserves and supplies", "anchors": ["pallets/stableswap/src/lib.rs:do_remove_liquidity", "pallets/stableswap/src/lib.rs:do_mint_protocol_fee", "pallets/stableswap/src/lib.rs:remove_liquidity"]}
{"id": "C126", "title": "StableSwap providers can always leave", "statement": "A holder of LP tokens can withdraw at any time, and users can deposit.", "quantifier": "all reachable states", "why_tests_cant": "liveness in every reachable state", "anchors": ["pallets/stableswap/src/lib.rs:remove_liquidity", "pallets/stableswap/src/lib.rs:add_liquidity", "pallets/stableswap/src/helpers.rs:compute_d"]}
{"id": "C127", "title": "StableSwap pools are governed and unique", "statement": "Only the configured origin creates pools; one per pair; each has its own fresh LP token; pools never disappear and MinimumLiquidity stays locked.", "quantifier": "all histories", "why_tests_cant": "all histories and callers", "anchors": ["pallets/stableswap/src/lib.rs:create_pool", "pallets/stableswap/src/lib.rs:do_get_liquidity"]}
{"id": "C128", "title": "Exact-output StableSwap quotes suffice", "statement": "The input get_amounts_in quotes for an output buys at least that output.", "quantifier": "all pools and amounts", "why_tests_cant": "all reserves and amounts", "anchors": ["pallets/stableswap/src/lib.rs:get_amounts_in", "pallets/stableswap/src/lib.rs:get_amount_in"]}
{"id": "C129", "title": "ERC20 transfer moves exactly the amount", "statement": "A transfer call at a token's address moves exactly the stated amount of that token from the caller to the recipient, logs it, returns true and changes nothing else; it succeeds when the caller holds the amount.", "quantifier": "all calldata, tokens, states and callers", "why_tests_cant": "all byte strings, amounts and states", "anchors": ["precompiles/balances-erc20/src/lib.rs:transfer", "precompiles/assets-erc20/src/lib.rs:transfer"]}
{"id": "C130", "title": "ERC20 balances fall only with the owner's consent", "statement": "A balance falls in an EVM call of a token only if its owner is the caller, the caller had an allowance covering it (consumed exactly), or the caller is the asset's admin; over any history a spender takes at most what was granted.", "quantifier": "all calldata and histories of EVM calls and extrinsics", "why_tests_cant": "all byte strings and histories", "anchors": ["precompiles/balances-erc20/src/lib.rs:transfer_from", "precompiles/assets-erc20/src/lib.rs:transfer_from"]}
{"id": "C131", "title": "ERC20 approve sets the allowance", "statement": "approve sets the allowance of the spender to the stated value (at most the largest balance), replacing the old one, and changes nothing else.", "quantifier": "all values, tokens and states", "why_tests_cant": "all 256-bit values and earlier allowances", "anchors": ["precompiles/balances-erc20/src/lib.rs:approve", "precompiles/assets-erc20/src/lib.rs:approve_inner"]}
{"id": "C132", "title": "A permit is signed by the owner and works once", "statement": "permit sets an allowance only with the owner's signature over chain, contract, token, owner, spender, value, current nonce and an unexpired deadline; the same permit never works again, at this or any other token.", "quantifier": "all calldata, histories and signatures", "why_tests_cant": "all histories between two uses", "anchors": ["precompiles/balances-erc20/src/eip2612.rs:permit", "precompiles/assets-erc20/src/eip2612.rs:permit", "precompiles/balances-erc20/src/eip2612.rs:nonces"]}
{"id": "C133", "title": "No DELEGATECALL of token precompiles", "statement": "A contract cannot run a token precompile in the name of its caller: DELEGATECALL and CALLCODE of token addresses fail.", "quantifier": "all contexts and calldata", "why_tests_cant": "all contexts", "anchors": ["runtime/common/src/precompiles.rs:execute", "runtime/common/src/precompiles.rs:is_precompile"]}
{"id": "C134", "title": "Non-payable and read-only calls", "statement": "Functions that are not payable reject attached value; a static call changes nothing.", "quantifier": "all contexts and calldata", "why_tests_cant": "all contexts and calldata", "anchors": ["precompiles/utils/src/lib.rs:check_function_modifier", "precompiles/balances-erc20/src/lib.rs:execute", "precompiles/assets-erc20/src/lib.rs:execute"]}
{"id": "C135", "title": "Token addresses and assets correspond", "statement": "Every asset is found at its ERC20 address; an address is one asset; an asset has one address.", "quantifier": "all addresses and asset ids", "why_tests_cant": "2^160 addresses", "anchors": ["runtime/vanilla/src/lib.rs:address_to_asset_id", "runtime/vanilla/src/lib.rs:asset_id_to_address", "precompiles/assets-erc20/src/lib.rs:is_precompile"]}
{"id": "C136", "title": "ERC20 views tell the truth", "statement": "totalSupply, balanceOf, allowance and nonces return the stored values, always succeed and change nothing.", "quantifier": "all states and addresses", "why_tests_cant": "all states", "anchors": ["precompiles/balances-erc20/src/lib.rs:balance_of", "precompiles/assets-erc20/src/lib.rs:balance_of", "precompiles/assets-erc20/src/lib.rs:total_supply", "precompiles/balances-erc20/src/lib.rs:allowance"]}
{"id": "C137", "title": "Deposits and withdrawals of the wrapped native token are neutral", "statement": "deposit (and any unknown call) of the native token returns exactly the attached value to the caller; withdraw changes no balance.", "quantifier": "all calldata and values", "why_tests_cant": "all byte strings and values", "anchors": ["precompiles/balances-erc20/src/lib.rs:deposit", "precompiles/balances-erc20/src/lib.rs:withdraw"]}
{"id": "C138", "title": "ERC20 supply is governed", "statement": "An EVM call changes the supply of a token only by the issuer's mint or the admin's burn, by exactly the amount; balances always add up to the supply.", "quantifier": "all calldata and histories", "why_tests_cant": "all histories", "anchors": ["precompiles/assets-erc20/src/lib.rs:mint", "precompiles/assets-erc20/src/lib.rs:burn"]}
{"id": "C139", "title": "Assets have unambiguous names across chains", "statement": "Our own tokens have the same meaning named from inside or from the relay chain; an asset that arrives under a name leaves under that name; different outside names are different assets; the name an asset leaves under resolves to it again.", "quantifier": "all locations and all registry histories", "why_tests_cant": "all locations and histories", "anchors": ["pallets/traits/src/xcm.rs:XcmAssetRegistry", "pallets/traits/src/xcm.rs:CurrencyIdConvert"]}
{"id": "C140", "title": "Execution is charged exactly", "statement": "Buying weight for a message succeeds exactly if the first asset has a price and covers floor(price * time / 10^12); exactly that is taken, the rest handed back; the only error is TooExpensive.", "quantifier": "all payments, weights, prices and registry states", "why_tests_cant": "all amounts and asset lists", "anchors": ["pallets/traits/src/xcm.rs:buy_weight", "pallets/traits/src/xcm.rs:FirstAssetTrader"]}
{"id": "C141", "title": "Incoming messages create no tokens", "statement": "A message adds to the issuance of a currency at most what it brought in; the usual transfer gives the beneficiary the amount less the charge and the treasury the charge.", "quantifier": "all sequences of operations an executor can perform", "why_tests_cant": "all message shapes, prices and refusals", "anchors": ["pallets/traits/src/xcm.rs:FirstAssetTrader", "pallets/traits/src/xcm.rs:XcmFeesToAccount", "pallets/traits/src/xcm.rs:deposit_asset"]}
{"id": "C142", "title": "Unused weight is refunded at its price", "statement": "A refund pays back the price of the unused weight, at most what was paid; every payment is either refunded or revenue; refunding never panics.", "quantifier": "all purchases and refunds", "why_tests_cant": "all weights and prices", "anchors": ["pallets/traits/src/xcm.rs:refund_weight", "pallets/traits/src/xcm.rs:buy_weight", "pallets/traits/src/xcm.rs:take_revenue"]}
{"id": "C143", "title": "Deposits credit exactly, gifts are bounded", "statement": "A deposit mints exactly the amount for the beneficiary; a gift of native tokens is made only with relay tokens, from the gift account, topping the beneficiary up to the configured gift, and once.", "quantifier": "all deposits, accounts and ledger states", "why_tests_cant": "all balances and refusals", "anchors": ["pallets/traits/src/xcm.rs:deposit_asset", "runtime/parallel/src/lib.rs:GiftConvert"]}
{"id": "C144", "title": "Withdrawals and transfers by message are exact", "statement": "Withdrawing burns exactly the amount of the named account, an internal transfer moves exactly it; unknown assets and accounts are refused; the fallback transactor never credits anything.", "quantifier": "all messages and ledger states", "why_tests_cant": "all locations and amounts", "anchors": ["pallets/traits/src/xcm.rs:withdraw_asset", "pallets/traits/src/xcm.rs:internal_transfer_asset", "runtime/parallel/src/lib.rs:AssetTransactors"]}
{"id": "C145", "title": "Relay-chain requests send exactly the right message", "statement": "A request burns exactly the configured fee from the helper account, sends one message that pays with that fee, performs exactly the wanted calls in order, reports to the returned query and refunds the rest; it succeeds when the account holds the fee, otherwise nothing is sent.", "quantifier": "all requests and states", "why_tests_cant": "all requests, fees and balances", "anchors": ["pallets/xcm-helper/src/lib.rs:do_ump_transact", "pallets/xcm-helper/src/lib.rs:report_outcome_notify", "pallets/xcm-helper/src/lib.rs:append_transact", "pallets/xcm-helper/src/lib.rs:do_bond", "pallets/xcm-helper/src/lib.rs:do_nominate"]}
{"id": "C146", "title": "Queries are never confused, fees are backed", "statement": "No two messages report to the same query and a query keeps the call it notifies, over every history; every fee the messages withdraw on the relay chain was burnt here.", "quantifier": "all histories of requests, fee updates and ledger activity", "why_tests_cant": "all histories", "anchors": ["pallets/xcm-helper/src/lib.rs:report_outcome_notify", "pallets/xcm-helper/src/lib.rs:do_ump_transact", "pallets/xcm-helper/src/lib.rs:add_xcm_fees"]}
{"id": "C147", "title": "A reported success means it happened", "statement": "If the relay chain answers a query with success, the calls of the message took effect.", "quantifier": "all relay chain states and outcomes of the calls", "why_tests_cant": "all outcomes on another chain", "anchors": ["pallets/xcm-helper/src/lib.rs:report_outcome_notify", "pallets/xcm-helper/src/lib.rs:append_transact"]}
{"id": "C148", "title": "An answer means all calls were dispatched and paid", "statement": "A message is answered at most once, to its query, only after all its calls were dispatched in order; with too low a fee nothing is dispatched; the fee is conserved.", "quantifier": "all relay chains, requests and fees", "why_tests_cant": "all behaviours of the relay chain", "anchors": ["pallets/xcm-helper/src/lib.rs:do_ump_transact", "pallets/xcm-helper/src/lib.rs:report_outcome_notify"]}
{"id": "C149", "title": "Encoded relay-chain calls are unambiguous", "statement": "Two different calls never have the same encoding, and no encoding is the beginning of another one.", "quantifier": "all calls with values in range, both networks", "why_tests_cant": "all values, nested calls", "anchors": ["pallets/traits/src/ump.rs:PolkadotCall", "pallets/traits/src/ump.rs:KusamaCall", "pallets/traits/src/ump.rs:StakingCall", "pallets/traits/src/ump.rs:ProxyCall"]}
{"id": "C150", "title": "Message fees are governed and never zero", "statement": "Only the update origin sets fees and weights, non-zero ones, for exactly the named kind of request; requests use them at once; paying in fees moves exactly the amount.", "quantifier": "all callers, kinds, values and histories", "why_tests_cant": "all histories", "anchors": ["pallets/xcm-helper/src/lib.rs:update_xcm_weight_fee", "pallets/xcm-helper/src/lib.rs:add_xcm_fees", "pallets/xcm-helper/src/lib.rs:xcm_weight_fee"]}
{"id": "C151", "title": "Delegation does not grow", "statement": "For a group of accounts whose full delegates, owners and co-signers are all in the group, nothing others do - nested batches, delegated, derived, multisig or council calls, over any history - changes the group's delegates, and every call that runs in a member's name is one a registered limited delegation hands out: no token transfer, no change of delegates, no XCM.", "quantifier": "all groups, all states, all histories of extrinsics by others, all nestings of calls", "why_tests_cant": "unbounded nesting and histories", "anchors": ["runtime/parallel/src/lib.rs:ProxyType", "runtime/parallel/src/lib.rs:InstanceFilter", "runtime/parallel/src/lib.rs:is_superset"]}
{"id": "C152", "title": "A delegated call runs as allowed, in the principal's name", "statement": "A delegate's call has an effect only if it is registered without delay, its type and the runtime allow the call, and then exactly the effect of the principal calling; a registered delegate can use its delegation; different limited types share no call.", "quantifier": "all delegates, types, calls and states", "why_tests_cant": "all calls and configurations", "anchors": ["runtime/parallel/src/lib.rs:ProxyType", "runtime/parallel/src/lib.rs:InstanceFilter"]}
{"id": "C153", "title": "The call filter holds at every depth", "statement": "Whatever an account wraps into batches, delegated, derived, multisig and council calls, only calls on the runtime's lists run, and none that is switched off.", "quantifier": "all calls of any nesting depth, all states", "why_tests_cant": "unbounded nesting", "anchors": ["runtime/parallel/src/lib.rs:BaseCallFilter", "runtime/parallel/src/lib.rs:WhiteListFilter", "pallets/evm-signatures/src/lib.rs:dispatch_bypass_filter"]}
{"id": "C154", "title": "Principals control their delegates", "statement": "Adding and removing a delegate changes exactly that entry; all delegates can be removed at any time, even during a shutdown; a former delegate is refused.", "quantifier": "all accounts, entries and states", "why_tests_cant": "all states", "anchors": ["runtime/parallel/src/lib.rs:WhiteListFilter", "runtime/parallel/src/lib.rs:ProxyType"]}
{"id": "C155", "title": "Delayed delegates give notice", "statement": "A delegate with a delay acts only on a call announced at least that many blocks ago, whatever happens in between; the principal can strike out the announcement; a ripe one can be used.", "quantifier": "all delays, calls and histories", "why_tests_cant": "all histories", "anchors": ["runtime/parallel/src/lib.rs:MaxPending", "runtime/parallel/src/lib.rs:ProxyType"]}
{"id": "C156", "title": "A limited delegate gets none of the principal's tokens", "statement": "A delegate of a limited type cannot bring the principal's tokens into its own hands.", "quantifier": "all histories by the delegate", "why_tests_cant": "all histories", "anchors": ["runtime/parallel/src/lib.rs:ProxyType", "pallets/streaming/src/lib.rs:create"]}
{"id": "C157", "title": "A lending market stays usable", "statement": "Supplying, redeeming, borrowing, repaying and liquidating in a market remain possible over time; in particular an unhealthy account can be liquidated.", "quantifier": "all reachable states and later histories", "why_tests_cant": "all histories", "anchors": ["pallets/loans/src/lib.rs:do_redeem_voucher", "pallets/loans/src/lib.rs:liquidated_transfer", "pallets/loans/src/interest.rs:ensure_valid_exchange_rate"]}
{"id": "C158", "title": "Debts can always be repaid", "statement": "In an active market a debtor who holds the tokens can repay any part of the debt, or all of it, whatever the state of the rest of the protocol.", "quantifier": "all reachable states, accounts and amounts", "why_tests_cant": "liveness over all states", "anchors": ["pallets/loans/src/lib.rs:do_repay_borrow", "pallets/loans/src/lib.rs:do_repay_borrow_with_amount", "pallets/loans/src/interest.rs:accrue_interest"]}
{"id": "C159", "title": "Suppliers can withdraw", "statement": "A supplier whose vouchers are not collateral, or who owes nothing, can withdraw whenever the market holds enough tokens.", "quantifier": "all reachable states, accounts and amounts", "why_tests_cant": "liveness over all states", "anchors": ["pallets/loans/src/lib.rs:do_redeem_voucher", "pallets/loans/src/lib.rs:redeem", "pallets/loans/src/lib.rs:redeem_all", "pallets/loans/src/lib.rs:get_account_liquidity"]}
{"id": "C160", "title": "Claiming rewards pays exactly what was earned", "statement": "A claim pays the rewards credited and earned up to the current block from the reward account, leaves nothing claimable (in that market), changes nobody else's rewards, and goes through when the reward account can pay.", "quantifier": "all reachable states and accounts", "why_tests_cant": "all states", "anchors": ["pallets/loans/src/lib.rs:claim_reward", "pallets/loans/src/lib.rs:claim_reward_for_market", "pallets/loans/src/farming.rs:collect_market_reward", "pallets/loans/src/farming.rs:pay_reward"]}
{"id": "C161", "title": "Rewards stay within the configured emission", "statement": "Over any history the rewards paid and credited do not exceed the configured speed times the blocks passed.", "quantifier": "all histories of calls, token movements, prices and blocks", "why_tests_cant": "all histories", "anchors": ["pallets/loans/src/farming.rs:update_reward_supply_index", "pallets/loans/src/farming.rs:distribute_borrower_reward", "pallets/loans/src/farming.rs:pay_reward"]}
{"id": "C162", "title": "Rewards earned are not taken away by others", "statement": "What an account can claim is not lowered by calls of others, by governance changing the speed, by its own supply or withdrawal, or by time.", "quantifier": "all reachable states, calls and accounts", "why_tests_cant": "all states and calls", "anchors": ["pallets/loans/src/farming.rs:collect_market_reward", "pallets/loans/src/farming.rs:distribute_borrower_reward", "pallets/loans/src/lib.rs:liquidated_transfer"]}
{"id": "C163", "title": "Contributions stay backed across upgrades", "statement": "Through any sequence of crowdloan calls and storage upgrades that fit the state, waiting and in-flight contributions are backed by relay tokens, the counters of every vault are the sums of its books, and no two vaults share books.", "quantifier": "all histories of calls and upgrades", "why_tests_cant": "all histories with upgrades at any point", "anchors": ["pallets/crowdloans/src/migrations.rs:migrate", "pallets/crowdloans/src/lib.rs:create_vault"]}
{"id": "C164", "title": "A crowdloan upgrade does exactly what was announced", "statement": "A storage upgrade does nothing unless the storage version is the expected one; otherwise it writes exactly the announced vaults and changes no balance, contribution, stream, request or bonus.", "quantifier": "all upgrades and states", "why_tests_cant": "all states", "anchors": ["pallets/crowdloans/src/migrations.rs:migrate", "runtime/parallel/src/lib.rs:CrowdloansMigrationV4"]}
{"id": "C165", "title": "An upgrade takes effect once", "statement": "A storage upgrade that is contained in several releases of the runtime takes effect only the first time, whatever happened in between.", "quantifier": "all upgrades, states and later states", "why_tests_cant": "all histories between releases", "anchors": ["pallets/crowdloans/src/migrations.rs:migrate", "runtime/parallel/src/lib.rs:CrowdloansMigrationV4"]}
{"id": "C166", "title": "Derivative tokens stay redeemable across upgrades", "statement": "No storage upgrade leaves more derivative tokens and claims to them than the vaults account for, and the difference never changes afterwards.", "quantifier": "all states, upgrades and later histories", "why_tests_cant": "all histories", "anchors": ["pallets/crowdloans/src/migrations.rs:migrate", "pallets/crowdloans/src/lib.rs:redeem"]}
{"id": "C167", "title": "No contribution is lost in an upgrade", "statement": "A storage upgrade keeps every existing vault and its books.", "quantifier": "all states and upgrades", "why_tests_cant": "all states", "anchors": ["pallets/crowdloans/src/migrations.rs:migrate"]}
{"id": "C168", "title": "The lending upgrade keeps markets and positions", "statement": "The storage upgrade of lending keeps every market, position and token, gives each market a liquidation threshold between its collateral factor and 100 percent, makes nobody liquidatable whose debts are within the collateral, and runs once.", "quantifier": "all states before the upgrade", "why_tests_cant": "all states and accounts", "anchors": ["pallets/loans/src/migrations.rs:migrate", "pallets/loans/src/migrations.rs:V2Market", "pallets/loans/src/lib.rs:liquidate_borrow_allowed"]}
{"id": "C169", "title": "After the lending upgrade nothing is lost or stuck", "statement": "After the storage upgrade of lending, credited rewards can be claimed, debts bear interest for the whole time, and governance can adjust every market.", "quantifier": "all states before the upgrade", "why_tests_cant": "all states", "anchors": ["pallets/loans/src/migrations.rs:migrate", "pallets/loans/src/migrations.rs:RewardAccured", "pallets/loans/src/lib.rs:update_market"]}
{"id": "C170", "title": "The registry upgrade keeps all names", "statement": "After the conversion to XCM version 3 every asset keeps its (converted) location and every location its asset and price, and nothing new appears; the upgrade fails as a whole only if some location cannot be converted.", "quantifier": "all registries and conversions that merge no locations", "why_tests_cant": "all registries and conversions", "anchors": ["pallets/asset-registry/src/migration.rs:on_runtime_upgrade", "pallets/asset-registry/src/migration.rs:XcmV2ToV3AssetManager"]}
{"id": "C171", "title": "The registry upgrade keeps the fee assets", "statement": "After the conversion to XCM version 3 exactly the assets accepted for fees before are accepted.", "quantifier": "all registries and conversions", "why_tests_cant": "all registries and orders of locations", "anchors": ["pallets/asset-registry/src/migration.rs:on_runtime_upgrade", "pallets/asset-registry/src/lib.rs:payment_is_supported"]}
{"id": "C172", "title": "Routed trades go through", "statement": "A trader who holds the input of a trade on a valid route, whose quote meets the stated limit, gets the trade, and gets exactly the quoted amount, unless a hop is too small for a fee unit or overflows.", "quantifier": "all reachable states, traders, routes of any length, amounts and limits", "why_tests_cant": "all routes, pool states and amounts", "anchors": ["pallets/router/src/lib.rs:swap_exact_tokens_for_tokens", "pallets/router/src/lib.rs:swap_tokens_for_exact_tokens"]}
{"id": "C173", "title": "Sending vouchers moves just the vouchers", "statement": "A transfer of lending vouchers moves exactly the stated number from sender to receiver and leaves tokens, debts, markets, other vouchers and the choice of collateral as they are; vouchers that are not collateral can always be sent.", "quantifier": "all reachable states, accounts and amounts", "why_tests_cant": "all states", "anchors": ["pallets/loans/src/ptoken.rs:transfer", "pallets/loans/src/ptoken.rs:do_transfer_ptokens", "pallets/loans/src/ptoken.rs:reducible_asset"]}
{"id": "C174", "title": "Reserve movements are exact", "statement": "Adding to or taking from the reserves of a market moves exactly the stated amount, never more than the recorded reserves, needs the reserve origin, leaves the backing and number of vouchers and all debts unchanged, and goes through when the cash is there; the liquidation reserve is paid from its own vouchers at the current rate.", "quantifier": "all reachable states, amounts and receivers", "why_tests_cant": "all states", "anchors": ["pallets/loans/src/lib.rs:add_reserves", "pallets/loans/src/lib.rs:reduce_reserves", "pallets/loans/src/lib.rs:reduce_incentive_reserves"]}
{"id": "C175", "title": "Unhealthy accounts can be liquidated", "statement": "An account whose debts are worth more than its collateral at the liquidation thresholds can be liquidated by anybody who holds the debt tokens, for any amount within the close factor that the chosen collateral pays for.", "quantifier": "all reachable states, liquidators, accounts, markets and amounts", "why_tests_cant": "liveness over all states and prices", "anchors": ["pallets/loans/src/lib.rs:liquidate_borrow", "pallets/loans/src/lib.rs:do_liquidate_borrow", "pallets/loans/src/lib.rs:liquidate_borrow_allowed", "pallets/loans/src/lib.rs:get_lf_borrowed_value"]}
{"id": "C176", "title": "Supplying goes through", "statement": "Whoever holds tokens of an active market can supply them, up to the market's cap, and the market stays open for that.", "quantifier": "all reachable states, accounts and amounts", "why_tests_cant": "liveness over all states", "anchors": ["pallets/loans/src/lib.rs:do_mint", "pallets/loans/src/lib.rs:mint", "pallets/loans/src/lib.rs:ensure_under_supply_cap"]}
{"id": "C177", "title": "Covered loans go through", "statement": "An account can borrow any amount the market holds, within its cap, whose value together with its debts is covered by its collateral that is not reserved for the liquidation-free currency (a loan in that currency: by either).", "quantifier": "all reachable states, accounts and amounts", "why_tests_cant": "liveness over all states and prices", "anchors": ["pallets/loans/src/lib.rs:do_borrow", "pallets/loans/src/lib.rs:borrow_allowed", "pallets/loans/src/lib.rs:ensure_liquidity"]}
{"id": "C178", "title": "The choice of collateral is the supplier's", "statement": "Switching collateral on or off changes just that choice; it can be switched on whenever there is a deposit in an active market, and off when the debts, with the interest due, are covered by the rest, and only then.", "quantifier": "all reachable states, accounts and markets", "why_tests_cant": "all states and prices", "anchors": ["pallets/loans/src/lib.rs:collateral_asset", "pallets/loans/src/lib.rs:do_collateral_asset"]}
