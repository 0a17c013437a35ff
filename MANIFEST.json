{"claims": [
 {"property": "C01", "status": "proved", "theorems": ["C01_swap_bounds"], "note": ""},
 {"property": "C02", "status": "proved", "theorems": ["C02_swap_moves_the_quote"], "note": ""},
 {"property": "C03", "status": "proved", "theorems": ["C03_validation"], "note": ""},
 {"property": "C04", "status": "proved", "theorems": ["C04_split_purchase"], "note": ""},
 {"property": "C05", "status": "proved", "theorems": ["C05_purchase_monotone", "C05_sale_monotone"], "note": ""},
 {"property": "C06", "status": "partial", "theorems": ["C06_dear_refuted", "C06_dearest_refuted", "C06_gain_partial", "C06_gain_two_partial", "C06_round_trip_refuted", "C06_round_trip_partial"], "note": "False for slopes near 10^-18 (witness: buy for 3, sell back for 5) and for prices above 10^18 (witness with whole-number parameters gains 3). Proved for slopes between 10^-17 and 10^14 and starting prices up to 10^17. For every curve that can be created the gain is at most 39 units (witness: 36), with starting prices up to 10^17 and slopes up to 10^14 at most 2."},
 {"property": "C07", "status": "partial", "theorems": ["C07_backing_refuted", "C07_backing_exact_partial", "C07_backing_partial"], "note": "False as stated: the price of a final purchase is rounded to the nearest unit, so cheap tokens can stay out unbacked. Proved for parameters with an exact decimal image: exact backing without final purchases, at most one unit missing with them. Other parameters: see C84; all that can be created: C105."},
 {"property": "C08", "status": "proved", "theorems": ["C08_purchase_lower", "C08_purchase_upper"], "note": ""},
 {"property": "C09", "status": "partial", "theorems": ["C09_sale_leaves_refuted", "C09_sale_leaves_partial", "C09_sale_exact_partial", "C09_sale_decimal_partial"], "note": "False by one unit for very fine denominators; proved up to 2*10^-18 for all curves, and exactly for denominators with product at most 10^18/4 or with exact decimal image."},
 {"property": "C10", "status": "proved", "theorems": ["C10_oversized_sale"], "note": ""},
 {"property": "C11", "status": "partial", "theorems": ["C11_same_price_refuted", "C11_same_price_partial", "C11_first_token_partial", "C11_ledger_partial"], "note": "False when one offer fits and the other exceeds the position; equal otherwise (C11_same_price_partial). In every case the payments are less than a unit more than the price of the first token of the curve apart (C11_first_token_partial, on the ledger C11_ledger_partial)."},
 {"property": "C12", "status": "proved", "theorems": ["C12_last_purchase", "C12_covered_offer_sells_out"], "note": ""},
 {"property": "C13", "status": "partial", "theorems": ["C13_no_abort_refuted", "C13_abort_iff_partial"], "note": "False; the exact set of states in which a swap aborts is proved."},
 {"property": "C14", "status": "proved", "theorems": ["C14_integer_sqrt_down", "C14_integer_sqrt_up"], "note": ""},
 {"property": "C15", "status": "proved", "theorems": ["C15_fixed_sqrt_down", "C15_fixed_sqrt_up", "C15_fixed_sqrt_monotone", "C15_fixed_sqrt_panic_iff"], "note": ""},
 {"property": "C16", "status": "proved", "theorems": ["C16_convert_roundtrip", "C16_to_imprecise_rounds_half_up", "C16_to_imprecise_no_panic", "C16_floor", "C16_ceiling"], "note": ""},
 {"property": "C17", "status": "proved", "theorems": ["C17_mul_nearest", "C17_mul_defined", "C17_mul_overflow", "C17_mul_whole_exact", "C17_div_bounds", "C17_div_error", "C17_div_whole_floor", "C17_div_overflow", "C17_div_by_zero", "C17_mul_no_panic", "C17_div_no_panic"], "note": ""},
 {"property": "C18", "status": "partial", "theorems": ["C18_to_spl_refuted", "C18_to_spl_partial"], "note": "The full statement is false; the refutation gives a witness and the partial theorem states what the conversion computes."},
 {"property": "C19", "status": "partial", "theorems": ["C19_liquidity_refuted", "C19_liquidity_partial"], "note": "False: after all pool tokens have been burned by their holders, deposit_single_token_type_exact_amount_in succeeds on a linear pool (witness history). Proved that this is the only case."},
 {"property": "C20", "status": "proved", "theorems": ["C20_linear_pools_mint_nothing", "C20_no_fee_swap"], "note": "Instruction level for every pool without trading fees, and for every linear pool of every reachable ledger."},
 {"property": "C21", "status": "proved", "theorems": ["C21_fee_bounds"], "note": ""},
 {"property": "C22", "status": "proved", "theorems": ["C22_validated_fees", "C22_created_fees_are_proper"], "note": "Validation function and creation instruction, with and without the owner's compiled-in constraints."},
 {"property": "C23", "status": "proved", "theorems": ["C23_constant_price_exact"], "note": ""},
 {"property": "C24", "status": "partial", "theorems": ["C24_withdrawal_fair", "C24_deposit_fair_refuted", "C24_deposit_fair_partial"], "note": "Withdrawals proved. Deposits: false because the value is halved rounding down (witness); proved for the value rounded down to an even number."},
 {"property": "C25", "status": "proved", "theorems": ["C25_single_deposit_fair"], "note": ""},
 {"property": "C26", "status": "partial", "theorems": ["C26_single_withdrawal_fair_refuted", "C26_single_withdrawal_fair_partial", "C26_single_withdrawal_net_partial"], "note": "False with a trading fee (witness). Proved without trading fee, and with one for the amount less the fee."},
 {"property": "C27", "status": "partial", "theorems": ["C27_swap_fair_refuted", "C27_swap_fair_partial"], "note": "False by one minted pool-token unit (witness); proved up to that unit."},
 {"property": "C28", "status": "proved", "theorems": ["C28_constant_product", "C28_offset", "C28_empty_reserve_refuted"], "note": "The condition on the source reserve is part of the property; C28_empty_reserve_refuted shows it is needed."},
 {"property": "C29", "status": "proved", "theorems": ["C29_ratio_floor", "C29_ratio_ceiling", "C29_ratio_no_panic"], "note": ""},
 {"property": "C30", "status": "proved", "theorems": ["C30_offset_pays_what_it_holds"], "note": ""},
 {"property": "C31", "status": "proved", "theorems": ["C31_stable_bounds", "C31_stable_no_panic"], "note": ""},
 {"property": "C32", "status": "proved", "theorems": ["C32_state_roundtrip", "C32_state_written_back", "C32_curve_roundtrip", "C32_fees_roundtrip"], "note": ""},
 {"property": "C33", "status": "proved", "theorems": ["C33_unpack_accepts", "C33_unpack_errors", "C33_zeroed_not_a_pool"], "note": ""},
 {"property": "C34", "status": "proved", "theorems": ["C34_second_creation_refused", "C34_creation_needs_a_fresh_account"], "note": ""},
 {"property": "C35", "status": "proved", "theorems": ["C35_creation"], "note": ""},
 {"property": "C36", "status": "proved", "theorems": ["C36_pool_state_never_changes"], "note": ""},
 {"property": "C37", "status": "proved", "theorems": ["C37_swap_accounts", "C37_deposit_all_accounts", "C37_withdraw_all_accounts", "C37_deposit_single_accounts", "C37_withdraw_single_accounts"], "note": ""},
 {"property": "C38", "status": "proved", "theorems": ["C38_debits_are_authorised"], "note": ""},
 {"property": "C39", "status": "proved", "theorems": ["C39_vaults_are_safe"], "note": ""},
 {"property": "C40", "status": "proved", "theorems": ["C40_only_own_instructions_mint", "C40_minted_amount_is_credited"], "note": ""},
 {"property": "C41", "status": "proved", "theorems": ["C41_deposit_all"], "note": ""},
 {"property": "C42", "status": "proved", "theorems": ["C42_withdraw_all"], "note": ""},
 {"property": "C43", "status": "proved", "theorems": ["C43_deposit_single"], "note": ""},
 {"property": "C44", "status": "proved", "theorems": ["C44_withdraw_single"], "note": ""},
 {"property": "C45", "status": "partial", "theorems": ["C45_nothing_for_nothing_refuted", "C45_nothing_for_nothing_partial"], "note": "False: with no pool tokens in existence a deposit of zero mints 10^9 pool tokens (witness history). Proved whenever pool tokens exist, and always for two-sided deposits."},
 {"property": "C46", "status": "proved", "theorems": ["C46_pools_are_isolated"], "note": ""},
 {"property": "C47", "status": "proved", "theorems": ["C47_extra_accounts_are_ignored"], "note": "Extra accounts have no influence; everything minted by a swap goes to the ninth account (C02), which is the recorded fee account (C37)."},
 {"property": "C48", "status": "proved", "theorems": ["C48_pools_are_in_order"], "note": ""},
 {"property": "C49", "status": "partial", "theorems": ["C49_value_monotone_refuted", "C49_value_monotone_partial"], "note": "False: only the leading 32 bits are kept. Proved within one binary order of magnitude."},
 {"property": "C50", "status": "proved", "theorems": ["C50_curve_equality"], "note": ""},
 {"property": "C51", "status": "partial", "theorems": ["C51_quote_never_aborts_refuted", "C51_quote_aborts_when_partial", "C51_held_amount_partial", "C51_swap_partial"], "note": "False: depositing an amount whose quote exceeds 128 bits aborts (witness). Proved: exactly when it aborts, and that swaps and amounts the pool holds never abort."},
 {"property": "C52", "status": "proved", "theorems": ["C52_swap_exactly"], "note": ""},
 {"property": "C53", "status": "proved", "theorems": ["C53_deposit_all_exactly", "C53_deposit_single_exactly"], "note": ""},
 {"property": "C54", "status": "proved", "theorems": ["C54_withdraw_all_exactly", "C54_withdraw_single_exactly"], "note": ""},
 {"property": "C55", "status": "proved", "theorems": ["C55_creation_exactly"], "note": ""},
 {"property": "C56", "status": "proved", "theorems": ["C56_transfer_exactly", "C56_mint_exactly", "C56_burn_exactly"], "note": ""},
 {"property": "C57", "status": "proved", "theorems": ["C57_fees_exactly"], "note": ""},
 {"property": "C58", "status": "proved", "theorems": ["C58_swap_exactly", "C58_single_exactly"], "note": ""},
 {"property": "C59", "status": "proved", "theorems": ["C59_price_swap", "C59_price_single", "C59_price_both", "C59_price_value"], "note": ""},
 {"property": "C60", "status": "proved", "theorems": ["C60_product_swap", "C60_shares", "C60_product_single", "C60_product_value"], "note": ""},
 {"property": "C61", "status": "proved", "theorems": ["C61_offset_swap", "C61_offset_shift", "C61_offset_overflow"], "note": ""},
 {"property": "C62", "status": "proved", "theorems": ["C62_stable_swap", "C62_stable_single", "C62_stable_value"], "note": ""},
 {"property": "C63", "status": "proved", "theorems": ["C63_curve_validation", "C63_supply_validation"], "note": ""},
 {"property": "C64", "status": "proved", "theorems": ["C64_written_is_read", "C64_read_was_written", "C64_entry_exactly"], "note": ""},
 {"property": "C65", "status": "proved", "theorems": ["C65_writes_only_writable", "C65_calls_only_writable"], "note": ""},
 {"property": "C66", "status": "proved", "theorems": ["C66_ledger_backing", "C66_ledger_backing_exact"], "note": "Lifts C07 to the ledger. Scope is in the statement: exact decimal image, prices below 10^17. Other parameters: see C84."},
 {"property": "C67", "status": "proved", "theorems": ["C67_value_per_token", "C67_value_per_token_history", "C67_two_sided_deposit", "C67_swap"], "note": "Ledger form of C23-C27; the exclusions are exactly the refuted cases of C24, C26 and C27."},
 {"property": "C68", "status": "proved", "theorems": ["C68_limits_only_limit", "C68_looser_limits"], "note": ""},
 {"property": "C69", "status": "proved", "theorems": ["C69_swap_error", "C69_deposit_all_error", "C69_withdraw_all_error", "C69_deposit_single_error", "C69_withdraw_single_error", "C69_creation_error", "C69_not_a_pool"], "note": "Says what must hold for the returned error; when several checks fail, which one is reported is not part of the statement."},
 {"property": "C70", "status": "proved", "theorems": ["C70_error_numbers"], "note": ""},
 {"property": "C71", "status": "partial", "theorems": ["C71_invalid_supply_partial", "C71_invalid_supply_refuted"], "note": "False: creating a linear pool with a non-empty vault A returns it too (witness). Proved for constant-price pools; C69 has the exact alternatives."},
 {"property": "C72", "status": "partial", "theorems": ["C72_cover_partial", "C72_cover_sell_out_partial", "C72_loop_refuted"], "note": "The loop claim is false through a sale of more than the pool has sold, which takes the whole reserve (witness on the ledger: 24 of 125 lost). Proved: coverage is kept, for parameters with an exact decimal image. Other parameters: see C84; all that can be created: C105."},
 {"property": "C73", "status": "partial", "theorems": ["C73_gain_partial", "C73_split_sale_decimal_partial", "C73_split_sale_dear_partial", "C73_split_sale_refuted"], "note": "False for extreme parameters (witness gains 1). Proved for exact decimal images, and for slopes >= 10^-17 with a starting price >= 1/5; for every curve that can be created the gain is at most 2 units."},
 {"property": "C74", "status": "proved", "theorems": ["C74_spl_mul", "C74_spl_div", "C74_spl_mul_defined", "C74_spl_div_defined", "C74_dfs_mul_defined", "C74_dfs_div_defined", "C74_unsigned_sub", "C74_almost_eq"], "note": ""},
 {"property": "C75", "status": "partial", "theorems": ["C75_value_near_limit_refuted", "C75_value_partial"], "note": "False: the guarded branch is dead code, so a sum beyond 128 bits gives no value (witness). Proved exactly when there is a value and which. 64-bit vault balances are never affected."},
 {"property": "C76", "status": "proved", "theorems": ["C76_depends_on_named", "C76_changes_only_named"], "note": ""},
 {"property": "C77", "status": "proved", "theorems": ["C77_independent_commute"], "note": ""},
 {"property": "C78", "status": "partial", "theorems": ["C78_can_sell_refuted", "C78_exit_partial", "C78_sale_when_partial", "C78_sale_only_when_partial", "C78_covered_partial", "C78_holder_partial", "C78_sale_pays_partial"], "note": "Refuted: at price 10^6 and slope 10^-6, 786 tokens bought for 10^9 cannot be sold 100 at a time (worth > 10^8). Proved: exactly when a sale goes through (up to 2*10^-18 units), a lower bound of the payment in exact prices, and that an offer above the position pays out the reserve. Tokens covered by the reserve can be sold if all but one of them outweigh the blur of the square root and what a unit buys (C78_covered_partial, on the ledger C78_holder_partial)."},
 {"property": "C79", "status": "partial", "theorems": ["C79_can_buy_refuted", "C79_buy_all_partial", "C79_buy_some_partial", "C79_buy_any_partial", "C79_buys_only_partial", "C79_offer_partial", "C79_buyer_partial"], "note": "Refuted: remaining tokens worth less than half a unit cannot be bought by any offer. Proved: which offers go through, exactly but for 2*10^-18 units: those that move the estimated position by a token or cover all that remains, if what remains costs more than half a unit. How many tokens an offer gets at least: C79_offer_partial, on the ledger C79_buyer_partial."},
 {"property": "C80", "status": "proved", "theorems": ["C80_swap_when", "C80_linear_swap_when"], "note": ""},
 {"property": "C81", "status": "proved", "theorems": ["C81_withdraw_when", "C81_deposit_when", "C81_withdraw_single_when", "C81_deposit_single_when"], "note": ""},
 {"property": "C82", "status": "partial", "theorems": ["C82_others_block_refuted", "C82_no_exit_all_partial", "C82_no_exit_single_partial", "C82_linear_unblocked_partial"], "note": "Refuted: the owner of the fee account can close it and thereby block swaps and withdrawals of a constant-price pool with fees. Proved: without a fee account no withdrawal from a pool with a withdrawal fee succeeds; trades with linear pools depend neither on the fee account nor on the pool mint."},
 {"property": "C83", "status": "partial", "theorems": ["C83_own_token_refuted", "C83_own_token_empty_partial"], "note": "Refuted: a linear pool can be created with its pool mint as the mint of token A. Proved: this needs an initially empty vault of that token (token A of linear, token B of constant-price pools), provided no account holds more than the supply of its mint."},
 {"property": "C84", "status": "proved", "theorems": ["C84_history", "C84_history_sell_out", "C84_trace", "C84_ledger"], "note": ""},
 {"property": "C85", "status": "partial", "theorems": ["C85_understood_refuted", "C85_never_accepted", "C85_program_refuted"], "note": "False: the library numbers instructions with one byte (0 to 5), the program expects Anchor's 8-byte tags, so no instruction of the library is ever accepted (C85_never_accepted). Its default program address also differs from the declared one."},
 {"property": "C86", "status": "proved", "theorems": ["C86_swap", "C86_deposit_all", "C86_withdraw_all", "C86_deposit_single", "C86_withdraw_single", "C86_methods"], "note": ""},
 {"property": "C87", "status": "partial", "theorems": ["C87_price_refuted", "C87_creation", "C87_only_price"], "note": "False: the library puts a byte for the type of curve before the parameter, which the program does not expect. C87_creation says which price the program reads, C87_only_price that a single price survives."},
 {"property": "C88", "status": "partial", "theorems": ["C88_written", "C88_read", "C88_negative_refuted"], "note": "True for amounts from 0 to 2^64-1, and larger ones are refused; negative ones are sent without their sign."},
 {"property": "C89", "status": "proved", "theorems": ["C89_loaded", "C89_size"], "note": ""},
 {"property": "C90", "status": "partial", "theorems": ["C90_only_pools_refuted", "C90_version_tells"], "note": "False: neither version nor size is checked, so the interface description account passes. True if the first byte is 1 (C90_version_tells)."},
 {"property": "C91", "status": "partial", "theorems": ["C91_texts_tell", "C91_log_refuted", "C91_log_differs"], "note": "The texts are distinct; five of the 28 are logged with another wording (C91_log_differs)."},
 {"property": "C92", "status": "partial", "theorems": ["C92_swap_a_to_b", "C92_swap_b_to_a", "C92_deposit", "C92_withdraw", "C92_deposit_conversion_refuted", "C92_deposit_conversion_a_to_b_partial", "C92_deposit_conversion_b_to_a_partial", "C92_withdraw_conversion_refuted", "C92_withdraw_conversion_partial"], "note": "The tests of trades, deposits and withdrawals hold for every draw. The conversion tests are refuted by draws in range; proved for deposits up to half a percent of the pool and withdrawals of at least 400 tokens B on each side."},
 {"property": "C93", "status": "partial", "theorems": ["C93_swap_partial", "C93_swap_refuted", "C93_deposit", "C93_withdraw_refuted", "C93_withdraw_partial", "C93_conversions_refuted", "C93_deposit_conversion_partial", "C93_withdraw_conversion_partial"], "note": "Deposits hold for every draw. Trades: exactly the draws without a trade break the test. Withdrawals: refuted, the value per token can fall by less than two units of 10^-12. Conversions: refuted in general; proved for deposits of at least 10^4 units and a hundred-thousandth of the reserve, and for withdrawals of at least a ten-millionth of the supply from large enough reserves."},
 {"property": "C94", "status": "partial", "theorems": ["C94_swap_a_to_b_partial", "C94_swap_b_to_a_partial", "C94_swap_refuted", "C94_deposit", "C94_withdraw_refuted", "C94_withdraw_partial", "C94_conversions_refuted", "C94_deposit_conversion_a_to_b_partial", "C94_deposit_conversion_b_to_a_partial", "C94_withdraw_conversion_partial"], "note": "As C93, with the offset counted as reserve."},
 {"property": "C95", "status": "partial", "theorems": ["C95_deposit", "C95_values_refuted", "C95_conversions_refuted", "C95_same_sequence", "C95_invariant_refuted", "C95_simulated_trade", "C95_simulation_refuted"], "note": "Deposits hold for every draw. The value tests are refuted for the value the released program computes (the test build replaces it by one that is always zero, see C122). Conversions refuted. Program and simulation follow the same sequence to the invariant (C95_same_sequence) but may take different members of it; their trades differ by more than the test's tolerance on a draw in range."},
 {"property": "C96", "status": "partial", "theorems": ["C96_buy_partial", "C96_buy_refuted", "C96_sell_refuted", "C96_sell_partial"], "note": "Purchases: exactly the draws without a trade break the test. Sales: refuted, a sale of one unit can lower the value; proved that it falls by at most one in the last of its 32 bits, and that nothing else can fail but the trade itself."},
 {"property": "C97", "status": "partial", "theorems": ["C97_host_exactly", "C97_host_split", "C97_no_host", "C97_instruction_refuted"], "note": "True of the processor (C97_host_exactly, C97_host_split). False of the program: its swap instruction hands exactly ten accounts to the processor, so a host is never seen."},
 {"property": "C98", "status": "proved", "theorems": ["C98_swap", "C98_deposit", "C98_withdraw", "C98_deposit_single", "C98_withdraw_single"], "note": ""},
 {"property": "C99", "status": "proved", "theorems": ["C99_totals", "C99_base", "C99_instruction"], "note": ""},
 {"property": "C100", "status": "partial", "theorems": ["C100_worth_refuted", "C100_worth_partial"], "note": "Refuted: half of the payment is due in each token and what a vault lacks is not paid; from a pool without token B exactly half of the worth is paid. Proved: the exact payments, and that payment and lack add up to the worth but for less than price + 2 units."},
 {"property": "C101", "status": "partial", "theorems": ["C101_empties_refuted", "C101_left_partial", "C101_stranger_refuted"], "note": "Refuted: half of the difference in value of the vaults stays behind (exact amount in C101_left_partial), and a stranger who deposits nothing can take it (C101_stranger_refuted)."},
 {"property": "C102", "status": "partial", "theorems": ["C102_trip_refuted", "C102_two_for_one", "C102_trip_partial", "C102_trip_fees_partial", "C102_share_partial"], "note": "Refuted with trading fees: one-sided withdrawals take the fee off the amount before turning it into pool tokens, so a fee makes them cheaper, by half for an amount of 2 (C102_two_for_one); witness with fees of the fuzz harness gains 13 percent of the pool. Proved for any fees and histories: apart from one unit of token A per two-sided deposit, the loss is at most the fees let off by one-sided withdrawals and one pool token per swap that creates some (C102_trip_fees_partial, C102_share_partial)."},
 {"property": "C103", "status": "partial", "theorems": ["C103_more_refuted", "C103_more_partial", "C103_smallest_partial", "C103_ledger_partial", "C103_taki"], "note": "Refuted: when the remaining tokens cost less than a unit, an offer of 1 can get all of them and an offer of 2 nothing. Proved if the remaining tokens would cost two units at the start of the curve, on the curve and on the ledger (C103_ledger_partial); smallest purchase on the curve of test_taki computed for all offers."},
 {"property": "C104", "status": "partial", "theorems": ["C104_paid_refuted", "C104_pools", "C104_created", "C104_paid_partial"], "note": "True of what can be created (C104_pools, C104_created): constant-price pools only - linear pools, the purpose of this program, cannot be created in a production build - with at least the owner's fees and an account of the owner. False that every trade pays: C104_paid_refuted; C104_paid_partial determines what a trade pays the owner (the fee less half the trading fee, in pool tokens, rounded up, but nothing below half a pool token)."},
 {"property": "C105", "status": "partial", "theorems": ["C105_free_refuted", "C105_loop_refuted", "C105_history_partial", "C105_any_partial", "C105_trace_partial"], "note": "The first half is false: with slope 10^-18 two trades take 235620942 tokens for nothing and can be repeated without end (C105_free_refuted for any number of tokens, C105_loop_refuted on the ledger). The second half is proved for every curve that can be created: each sale, and each purchase that empties the pool, leaves at most as many further tokens unbacked as the first two units of collateral buy, never more than two billion."},
 {"property": "C106", "status": "partial", "theorems": ["C106_sold_out_partial", "C106_costs", "C106_next_refuted", "C106_next_partial", "C106_sold_out_refuted", "C106_sold_out_any_partial"], "note": "False that the second curve always exists: the end price may need more than 64 bits (C106_next_refuted); it exists if the unreduced fraction fits. The amounts agree up to one unit for starting prices whose roots the program computes exactly (C106_sold_out_partial). For others they may differ by millions (C106_sold_out_refuted), but by no more than the blur of the square root costs at the end of the curve, twice at most (C106_sold_out_any_partial). The exact costs always agree."},
 {"property": "C107", "status": "proved", "theorems": ["C107_rounds", "C107_least", "C107_start", "C107_program"], "note": "Counts rounds of the loop, not compute units, which the model does not have."},
 {"property": "C108", "status": "partial", "theorems": ["C108_never_accepted", "C108_never_read", "C108_bindings_refuted"], "note": "False throughout: the header is left over from an old version of the SPL program. No instruction of it is ever accepted (C108_never_accepted) and no pool is ever read as one (C108_never_read)."},
 {"property": "C109", "status": "partial", "theorems": ["C109_gain_refuted", "C109_buyer_partial", "C109_seller_partial", "C109_buyer_any_partial", "C109_seller_any_partial"], "note": "That nobody gains is false (witness: 475 of a purchase for 1000). The bound is proved for parameters with an exact decimal image while the vault is not emptied, and for every curve that can be created with the tolerance of C105."},
 {"property": "C110", "status": "partial", "theorems": ["C110_locked_refuted", "C110_history_partial", "C110_whole_partial", "C110_trace_partial"], "note": "That nothing stays behind is false (witness: 153 of 258 units after two purchases sold back in full). Proved: each trade puts the collateral ahead of the tokens sold by at most one token, the blur of the square root and what one unit buys, for histories and for traces of the ledger."},
 {"property": "C111", "status": "partial", "theorems": ["C111_one_refuted", "C111_two_partial"], "note": "One token is refuted (witness loses the price of 1.98 tokens); two tokens proved, with the tolerances of C110."},
 {"property": "C112", "status": "proved", "theorems": ["C112_steps", "C112_reachable", "C112_untouched", "C112_unchecked_refuted", "C112_tag"], "note": "Under the check of the fourth account of Create (a parameter; the library is not in /repo); without it a pool can be overwritten (C112_unchecked_refuted)."},
 {"property": "C113", "status": "proved", "theorems": ["C113_authority", "C113_write", "C113_set_authority", "C113_set_buffer", "C113_create_buffer", "C113_exact"], "note": "Effects of the four later instructions, and who can call them."},
 {"property": "C114", "status": "partial", "theorems": ["C114_deployer_refuted", "C114_anyone"], "note": "Refuted for every key; C114_anyone shows that any signer can create it while the address is empty."},
 {"property": "C115", "status": "proved", "theorems": ["C115_unspoiled"], "note": "From the exact conditions of creation (create_exact)."},
 {"property": "C116", "status": "partial", "theorems": ["C116_always_refuted", "C116_when_partial", "C116_charged_partial", "C116_none"], "note": "False as it stands (C116_always_refuted): with a single token B and fewer tokens A than the price nothing can be redeemed for both tokens (C116_none). C116_when_partial states exactly when it works for a holder who is not charged, C116_charged_partial for any number of pool tokens and any withdrawal fee."},
 {"property": "C117", "status": "partial", "theorems": ["C117_only_without_refuted", "C117_owner_fee_partial", "C117_trading_fee"], "note": "False for the trading fee (C117_only_without_refuted): such a pool trades, and C117_trading_fee says how. True for the owner's fee (C117_owner_fee_partial). The instructions create neither (C20)."},
 {"property": "C118", "status": "partial", "theorems": ["C118_trip_refuted", "C118_dearest_refuted", "C118_trip_partial", "C118_split_partial"], "note": "False (C118_trip_refuted: a gain of 2 units, reached through instructions alone; C118_dearest_refuted: a gain of 36 units after a gift). Proved: at most 39 units on any pool, 2 for prices up to 10^17 and slopes up to 10^14, nothing if the slope is also at least 10^-17; 2 units for sales in parts. These lift C06 and C73 to the ledger."},
 {"property": "C119", "status": "proved", "theorems": ["C119_passes", "C119_meaning", "C119_backed", "C119_funds", "C119_rest_partial", "C119_verdict_partial"], "note": "For lists of up to 100000 instructions and all 256 accounts of each kind the test passes (C119_passes): no other error, no fall in the value of a pool token, totals kept, all pool tokens redeemed. C119_backed says what the value check comes to. C119_funds: the token program's errors, one value in the model, are for lack of funds. For up to 10^11 instructions all but the value check is proved (C119_rest_partial, C119_verdict_partial)."},
 {"property": "C120", "status": "partial", "theorems": ["C120_drained", "C120_ledger", "C120_test_partial", "C120_rounds", "C120_test_refuted"], "note": "C120_drained and C120_ledger hold for every history. C120_test_partial shows that the final assertion of the test never fails; it does not show that no unwrap fails on the way (C13 shows that swaps can panic), that the collateral taken in fits into 64 bits (assumed) or that the loops end. C120_test_refuted: for a curve with a starting price below one unit the test fails."},
 {"property": "C121", "status": "partial", "theorems": ["C121_trades_refuted", "C121_aborts", "C121_blocked", "C121_locked", "C121_width", "C121_unblocked", "C121_one_unit_refuted", "C121_gift", "C121_anyone", "C121_anyone_unblocks"], "note": "The property is false: C121_trades_refuted gives a pool on which no swap ever succeeds and whose tokens never leave the vault; C121_gift and C121_anyone show how a gift blocks a pool. What is proved instead: C121_aborts says exactly at which amounts of collateral swaps abort, C121_locked that nothing leaves the vaults meanwhile, C121_unblocked that a gift of at most two units more than the width of the blocked range unblocks a pool, C121_anyone_unblocks that anyone who has it can give it. That a pool which is not blocked trades is not repeated here (C78, C79, C80)."},
 {"property": "C122", "status": "partial", "theorems": ["C122_roots", "C122_value", "C122_swap_blind", "C122_withdrawal_blind", "C122_notices_refuted", "C122_swap", "C122_withdrawal", "C122_solver", "C122_same_tests"], "note": "False: the cubic equation of the test build has only negative roots (C122_roots), a negative root is cast to zero, so every pool has the value zero (C122_value) and any trade or withdrawal passes (C122_swap_blind, C122_withdrawal_blind, witness in C122_notices_refuted). The solver of the library roots is a parameter; assumed of it is only that its answer fits the equation better than zero does."},
 {"property": "C123", "status": "partial", "theorems": ["C123_sale", "C123_sales", "C123_ledger", "C123_purchase_partial", "C123_failing_refuted", "C123_helps_refuted", "C123_cheaper_refuted"], "note": "Sales that succeed with and without the gift: C123_sale, C123_sales, C123_ledger. Purchases: C123_purchase_partial (all but purchases of the last tokens when these are worth less than two units). False if the sale fails without the gift (C123_failing_refuted). Also false that a gift never hurts the next seller (C123_helps_refuted) or never makes the next purchase cheaper (C123_cheaper_refuted)."},
 {"property": "C124", "status": "partial", "theorems": ["C124_buyer_refuted", "C124_buyer_partial", "C124_buyer_ledger_partial", "C124_seller_refuted", "C124_seller_partial", "C124_seller_ledger_partial"], "note": "False for both (C124_buyer_refuted: the second of two equal purchases gets five percent more; C124_seller_refuted: a unit more in the pool lowers a payment by the price of a token). Proved: a later buyer gets at most one token more, and a seller at a fuller pool at least as much for two tokens more but for one unit, each up to the blur of the square root and what a unit or two of collateral buy; on the curve and between any two reachable ledgers."},
 {"property": "C125", "status": "proved", "theorems": ["C125_more", "C125_smallest", "C125_ledger", "C125_hoard"], "note": "On the curve C125_more and C125_smallest, on the ledger C125_ledger. C125_hoard computes the smallest sale of the pool of C78_can_sell_refuted (148 tokens)."},
 {"property": "C126", "status": "proved", "theorems": ["C126_swap", "C126_linear_swap", "C126_withdraw", "C126_deposit", "C126_withdraw_single", "C126_deposit_single"], "note": "Joins C86 and C88 with C80 and C81. That the tag has to be replaced is C85."}
]}
