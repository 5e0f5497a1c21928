{
 "claims": [
  {
   "property": "C01",
   "status": "proved",
   "theorems": [
    "C01_liquid_solvency"
   ],
   "note": ""
  },
  {
   "property": "C02",
   "status": "proved",
   "theorems": [
    "C02_payouts_never_bounce"
   ],
   "note": ""
  },
  {
   "property": "C03",
   "status": "proved",
   "theorems": [
    "C03_supply_is_tokens_in_existence"
   ],
   "note": ""
  },
  {
   "property": "C04",
   "status": "proved",
   "theorems": [
    "C04_unstake_tokens_backed",
    "C04_unstake_tokens_backed_always"
   ],
   "note": ""
  },
  {
   "property": "C05",
   "status": "proved",
   "theorems": [
    "C05_reserve_backed",
    "C05_reserve_backed_always"
   ],
   "note": ""
  },
  {
   "property": "C06",
   "status": "proved",
   "theorems": [
    "C06_in_flight_exact",
    "C06_in_flight_never_smaller",
    "C06_no_record_no_call",
    "C06_unbonding_is_sum"
   ],
   "note": ""
  },
  {
   "property": "C07",
   "status": "proved",
   "theorems": [
    "C07_rate_never_decreases"
   ],
   "note": ""
  },
  {
   "property": "C08",
   "status": "proved",
   "theorems": [
    "C08_price_at_least_one"
   ],
   "note": ""
  },
  {
   "property": "C09",
   "status": "proved",
   "theorems": [
    "C09_no_profit",
    "C09_round_trip"
   ],
   "note": ""
  },
  {
   "property": "C10",
   "status": "proved",
   "theorems": [
    "C10_mint_exact",
    "C10_redeem_exact"
   ],
   "note": ""
  },
  {
   "property": "C11",
   "status": "proved",
   "theorems": [
    "C11_split_deposits",
    "C11_split_redemptions"
   ],
   "note": ""
  },
  {
   "property": "C12",
   "status": "proved",
   "theorems": [
    "C12_deposit_quote",
    "C12_redeem_quote",
    "C12_deposit_quotes",
    "C12_redeem_quotes"
   ],
   "note": ""
  },
  {
   "property": "C13",
   "status": "proved",
   "theorems": [
    "C13_full_exit",
    "C13_full_exit_works",
    "C13_quotes_fit"
   ],
   "note": ""
  },
  {
   "property": "C14",
   "status": "proved",
   "theorems": [
    "C14_rate_value",
    "C14_rate_at_least_one",
    "C14_rate_monotone"
   ],
   "note": ""
  },
  {
   "property": "C15",
   "status": "proved",
   "theorems": [
    "C15_delegate_matching",
    "C15_undelegate_matching"
   ],
   "note": ""
  },
  {
   "property": "C16",
   "status": "proved",
   "theorems": [
    "C16_delegate"
   ],
   "note": ""
  },
  {
   "property": "C17",
   "status": "proved",
   "theorems": [
    "C17_undelegate"
   ],
   "note": ""
  },
  {
   "property": "C18",
   "status": "proved",
   "theorems": [
    "C18_instant_redemption"
   ],
   "note": ""
  },
  {
   "property": "C19",
   "status": "proved",
   "theorems": [
    "C19_release_of_new_tokens",
    "C19_release_never_changes",
    "C19_locked"
   ],
   "note": ""
  },
  {
   "property": "C20",
   "status": "proved",
   "theorems": [
    "C20_withdraw",
    "C20_tokens_kept"
   ],
   "note": ""
  },
  {
   "property": "C21",
   "status": "proved",
   "theorems": [
    "C21_pot_covers_all",
    "C21_withdraw_in_full"
   ],
   "note": ""
  },
  {
   "property": "C22",
   "status": "proved",
   "theorems": [
    "C22_nonces_readable",
    "C22_cleaned_nonce_not_reused"
   ],
   "note": ""
  },
  {
   "property": "C23",
   "status": "proved",
   "theorems": [
    "C23_bystander"
   ],
   "note": ""
  },
  {
   "property": "C24",
   "status": "proved",
   "theorems": [
    "C24_delegate_batch"
   ],
   "note": ""
  },
  {
   "property": "C25",
   "status": "proved",
   "theorems": [
    "C25_undelegate_batch"
   ],
   "note": ""
  },
  {
   "property": "C26",
   "status": "proved",
   "theorems": [
    "C26_delegation_rejected",
    "C26_delegation_accepted"
   ],
   "note": ""
  },
  {
   "property": "C27",
   "status": "proved",
   "theorems": [
    "C27_undelegation_rejected",
    "C27_undelegation_accepted"
   ],
   "note": ""
  },
  {
   "property": "C28",
   "status": "proved",
   "theorems": [
    "C28_withdrawn_credited",
    "C28_empty_reply"
   ],
   "note": ""
  },
  {
   "property": "C29",
   "status": "proved",
   "theorems": [
    "C29_no_callback_aborts"
   ],
   "note": ""
  },
  {
   "property": "C30",
   "status": "proved",
   "theorems": [
    "C30_books_follow",
    "C30_books_equal"
   ],
   "note": ""
  },
  {
   "property": "C31",
   "status": "proved",
   "theorems": [
    "C31_reward_split",
    "C31_reward_booked"
   ],
   "note": ""
  },
  {
   "property": "C32",
   "status": "proved",
   "theorems": [
    "C32_whitelisting_starts",
    "C32_whitelisting_rejected",
    "C32_whitelisting_accepted",
    "C32_listed_for_good"
   ],
   "note": ""
  },
  {
   "property": "C33",
   "status": "proved",
   "theorems": [
    "C33_lists_consistent",
    "C33_lists_change"
   ],
   "note": ""
  },
  {
   "property": "C34",
   "status": "proved",
   "theorems": [
    "C34_better_scores_higher",
    "C34_score_exists",
    "C34_category_bounds"
   ],
   "note": ""
  },
  {
   "property": "C35",
   "status": "proved",
   "theorems": [
    "C35_shares_fit",
    "C35_delegation_split",
    "C35_top_provider_served"
   ],
   "note": ""
  },
  {
   "property": "C36",
   "status": "proved",
   "theorems": [
    "C36_undelegation_works",
    "C36_net_stakes"
   ],
   "note": ""
  },
  {
   "property": "C37",
   "status": "proved",
   "theorems": [
    "C37_owner_only",
    "C37_config_changes"
   ],
   "note": ""
  },
  {
   "property": "C38",
   "status": "proved",
   "theorems": [
    "C38_manager_only",
    "C38_managers_change",
    "C38_managers_added",
    "C38_manager_removed",
    "C38_managers_distinct"
   ],
   "note": ""
  },
  {
   "property": "C39",
   "status": "proved",
   "theorems": [
    "C39_params_effect",
    "C39_params_accepted",
    "C39_only_admins"
   ],
   "note": ""
  },
  {
   "property": "C40",
   "status": "proved",
   "theorems": [
    "C40_paused",
    "C40_replies_booked"
   ],
   "note": ""
  },
  {
   "property": "C41",
   "status": "proved",
   "theorems": [
    "C41_migrate",
    "C41_migrate_pending"
   ],
   "note": ""
  },
  {
   "property": "C42",
   "status": "proved",
   "theorems": [
    "C42_bounds"
   ],
   "note": ""
  },
  {
   "property": "C43",
   "status": "proved",
   "theorems": [
    "C43_tokens_final",
    "C43_issued_once",
    "C43_gated"
   ],
   "note": ""
  },
  {
   "property": "C44",
   "status": "proved",
   "theorems": [
    "C44_events_correct",
    "C44_no_silent_change"
   ],
   "note": ""
  },
  {
   "property": "C45",
   "status": "proved",
   "theorems": [
    "C45_claim_fees",
    "C45_available"
   ],
   "note": ""
  },
  {
   "property": "C46",
   "status": "partial",
   "theorems": [
    "C46_reentrance_refuted",
    "C46_reentrance_partial"
   ],
   "note": "claimFees is safe under re-entrance: whatever the accumulator calls during claimFees, LS supply = tokens in existence afterwards. False: the pool is written back from the copy read before the call. Partial: it holds exactly when the nested calls leave the number of tokens as it was; missing: nested calls that mint or burn."
  },
  {
   "property": "C47",
   "status": "partial",
   "theorems": [
    "C47_admin_blocks_refuted",
    "C47_change_within_partial"
   ],
   "note": "One provider cannot block delegation: no parameter choice of a provider admin makes delegatePending abort for everybody. False: a cap below the own net stake at the head of the list. Partial: choices that keep the cap at or above the net stake (or 0), with room at another provider."
  },
  {
   "property": "C48",
   "status": "partial",
   "theorems": [
    "C48_limit_refuted",
    "C48_limit_partial",
    "C48_bound_reached"
   ],
   "note": "The whitelist limit holds: never more listed providers than maxDelegationAddresses. False: the check is [<=] and sees only finished whitelistings; here the limit is 1 and 4 are listed. Partial: for every M and K, while the limit is never above M and a whitelisting is only started with fewer than K under way, at most M + K providers are listed or under way, whatever else happens; missing: the exact limit, and a bound by the current limit after it has been lowered. C48_bound_reached: M + K is reached for every M and K."
  },
  {
   "property": "C49",
   "status": "partial",
   "theorems": [
    "C49_locked_exactly",
    "C49_lock_out_refuted",
    "C49_supply_partial",
    "C49_deposits_partial"
   ],
   "note": "Deposits cannot be locked out by rewards. False: one unit sent to addRewards by anybody while no LS token exists blocks every deposit for good. Partial: if rewards come only while LS tokens exist, there are LS tokens whenever there is a reserve, and deposits worth at least one LS unit succeed; missing: rewards before the first deposit or after the last exit. C49_locked_exactly: deposits are locked out for good exactly in states with a reserve and no LS token."
  },
  {
   "property": "C50",
   "status": "partial",
   "theorems": [
    "C50_weights_refuted",
    "C50_weights_partial"
   ],
   "note": "An accepted scoring configuration has weights that sum to 100. False: the sum is taken in 64-bit arithmetic that wraps around. Partial: the sum is 100 modulo 2^64; missing: configurations whose sum overflows."
  },
  {
   "property": "C51",
   "status": "partial",
   "theorems": [
    "C51_order_refuted",
    "C51_order_partial"
   ],
   "note": "Replies delivered out of order never abort a callback or lose track of un-delegated EGLD. False: an un-delegation answered before the delegation it draws on aborts, and the unbonding EGLD is recorded nowhere. Partial: replies to delegations and rejected un-delegations never abort in any order, accepted un-delegations are recorded exactly when the recorded stake covers them; missing: accepted un-delegations that overtake a delegation (C29 covers delivery in order)."
  },
  {
   "property": "C52",
   "status": "partial",
   "theorems": [
    "C52_fee_refuted",
    "C52_fee_partial"
   ],
   "note": "For every fee value accepted by setFees the reward callback succeeds. False: fees above 100% are accepted; then the rewards arrive in no pot. Partial: the callback succeeds exactly when the fee does not exceed the rewards; missing: fees above 100%."
  },
  {
   "property": "C53",
   "status": "partial",
   "theorems": [
    "C53_withdraw_refuted",
    "C53_accounted_partial"
   ],
   "note": "No successful user call leaves EGLD sent with it unaccounted for. False: withdraw accepts EGLD and keeps it. Partial: exact change for every endpoint; only withdraw called with EGLD adds to what is unaccounted."
  },
  {
   "property": "C54",
   "status": "partial",
   "theorems": [
    "C54_queue_refuted",
    "C54_queue_partial"
   ],
   "note": "A non-empty un-delegation queue in a quiet active contract with enough stake can be processed. False: what a batch leaves over can be less than 1 EGLD and then nothing can be un-delegated until somebody redeems more. Partial: a queue of at least 1 EGLD with net stakes of 0 or at least 1 EGLD; missing: smaller queues and smaller net stakes."
  },
  {
   "property": "C55",
   "status": "partial",
   "theorems": [
    "C55_failure_refuted",
    "C55_failure_partial"
   ],
   "note": "After any provider failures the batch endpoints do not abort on arithmetic. False: a delegation rejected after an un-delegation that counted on it leaves less than 1 EGLD at a provider; from then on every unDelegatePending aborts. Partial: un-delegation in histories in which no provider rejects a delegation; missing: rejected delegations."
  },
  {
   "property": "C56",
   "status": "partial",
   "theorems": [
    "C56_cap_history_partial",
    "C56_cap_refuted",
    "C56_cap_partial"
   ],
   "note": "Recorded stake plus delegations in flight of a capped provider never exceed cap minus the stake reported by others, over any number of batches. False: the space is computed without the contract's own stake. Partial: each batch gives at most cap minus reported total, only to providers with 1 EGLD of room, so that the net stake stays below twice the cap; C56_cap_history_partial: that bound holds over all histories with unchanged parameters and no failed un-delegation; missing: the cap itself."
  },
  {
   "property": "C57",
   "status": "partial",
   "theorems": [
    "C57_stranded_exactly",
    "C57_payment_refuted",
    "C57_payment_partial"
   ],
   "note": "The payment of a successful whitelisting is either returned or turned into LS tokens and recorded stake. False: before the LS token is issued both replies abort; a rejected payment stays in no pot, an accepted one is staked without a record. Partial: once the LS token is issued and the payment is worth an LS unit; missing: earlier whitelistings; C57_stranded_exactly says exactly which replies are dealt with and what is left otherwise."
  },
  {
   "property": "C58",
   "status": "partial",
   "theorems": [
    "C58_config_exactly",
    "C58_config_refuted",
    "C58_config_partial"
   ],
   "note": "With any accepted scoring configuration the batch endpoints do not abort on arithmetic. False: equal node or APY bounds are accepted and divide by zero. Partial: configurations with distinct bounds; missing: equal bounds, for which C58_config_exactly says exactly which batches work."
  },
  {
   "property": "C59",
   "status": "partial",
   "theorems": [
    "C59_idle_exactly",
    "C59_progress_refuted",
    "C59_progress_partial"
   ],
   "note": "With an eligible uncapped provider a successful delegatePending delegates something. False: a full provider at the head of the list is selected and given nothing, again and again. Partial: if every eligible listed provider has 1 EGLD of reported room, at least 1 EGLD is delegated; missing: lists with a full provider, for which C59_idle_exactly says exactly when nothing is delegated."
  },
  {
   "property": "C60",
   "status": "partial",
   "theorems": [
    "C60_price_history_partial",
    "C60_negligible_partial",
    "C60_loss_refuted",
    "C60_loss_partial"
   ],
   "note": "A successful deposit of at least 1 EGLD loses at most a negligible part of its value to rounding. False: with very few LS units in existence and a large reserve one unit is worth EGLDs; here 2.9 EGLD buy 2.2. Partial: the loss is less than the price of one LS unit; C60_price_history_partial bounds that price over histories by the least number of LS units, the number of actions and the rewards; C60_negligible_partial: while LS units of 1 EGLD exist the loss stays below 2*10^-10 EGLD; missing: pools with fewer LS units."
  },
  {
   "property": "C61",
   "status": "proved",
   "theorems": [
    "C61_mock_books",
    "C61_mock_admissible"
   ],
   "note": ""
  },
  {
   "property": "C62",
   "status": "proved",
   "theorems": [
    "C62_manager_mock_pays",
    "C62_manager_mock_can_pay"
   ],
   "note": ""
  },
  {
   "property": "C63",
   "status": "proved",
   "theorems": [
    "C63_stored",
    "C63_available"
   ],
   "note": ""
  },
  {
   "property": "C64",
   "status": "proved",
   "theorems": [
    "C64_withdraw_asked",
    "C64_withdraw_available",
    "C64_claim_asked",
    "C64_claim_available",
    "C64_staked_listed"
   ],
   "note": ""
  },
  {
   "property": "C65",
   "status": "proved",
   "theorems": [
    "C65_rewards_added",
    "C65_available"
   ],
   "note": ""
  },
  {
   "property": "C66",
   "status": "proved",
   "theorems": [
    "C66_admin_replaced",
    "C66_available"
   ],
   "note": ""
  },
  {
   "property": "C67",
   "status": "proved",
   "theorems": [
    "C67_started",
    "C67_available",
    "C67_issued",
    "C67_refused"
   ],
   "note": ""
  },
  {
   "property": "C68",
   "status": "proved",
   "theorems": [
    "C68_payments"
   ],
   "note": ""
  },
  {
   "property": "C69",
   "status": "proved",
   "theorems": [
    "C69_delegation_split"
   ],
   "note": ""
  },
  {
   "property": "C70",
   "status": "proved",
   "theorems": [
    "C70_undelegation_candidates"
   ],
   "note": ""
  },
  {
   "property": "C71",
   "status": "proved",
   "theorems": [
    "C71_balance_explained"
   ],
   "note": ""
  },
  {
   "property": "C72",
   "status": "proved",
   "theorems": [
    "C72_fees_explained"
   ],
   "note": ""
  },
  {
   "property": "C73",
   "status": "proved",
   "theorems": [
    "C73_no_egld_lost"
   ],
   "note": ""
  },
  {
   "property": "C74",
   "status": "proved",
   "theorems": [
    "C74_holding_is_safe"
   ],
   "note": ""
  },
  {
   "property": "C75",
   "status": "proved",
   "theorems": [
    "C75_books_move",
    "C75_record_appears",
    "C75_record_goes"
   ],
   "note": ""
  },
  {
   "property": "C76",
   "status": "proved",
   "theorems": [
    "C76_balance_irrelevant",
    "C76_donation_inert"
   ],
   "note": ""
  },
  {
   "property": "C77",
   "status": "proved",
   "theorems": [
    "C77_tokens_paid_out",
    "C77_holder_paid_out"
   ],
   "note": ""
  },
  {
   "property": "C78",
   "status": "partial",
   "theorems": [
    "C78_matured_token_refuted",
    "C78_matured_token_partial"
   ],
   "note": "Whenever the release epoch of an unstake token has come its holder can withdraw. False: until an operator collected from the providers the pot is empty. Partial: the exact condition of success; missing: pots used up before the last payment."
  },
  {
   "property": "C79",
   "status": "partial",
   "theorems": [
    "C79_paid_in_order_refuted",
    "C79_paid_in_order_partial"
   ],
   "note": "Matured tokens are paid in the order of release. False: first come, first served. Partial: once the pot covers all matured tokens everybody is paid in full for the rest of the epoch whatever others do; missing: smaller pots."
  },
  {
   "property": "C80",
   "status": "partial",
   "theorems": [
    "C80_release_exactly",
    "C80_release_refuted",
    "C80_release_partial"
   ],
   "note": "The release epoch of new unstake tokens is never in the past. False: epoch plus unbonding period wraps around at 2^64. Partial: the sum fits in 64 bits; missing: longer periods; C80_release_exactly gives the release epoch for all of them and says exactly when it lies in the past."
  },
  {
   "property": "C81",
   "status": "partial",
   "theorems": [
    "C81_limit_exactly",
    "C81_max_selected_refuted",
    "C81_max_selected_partial"
   ],
   "note": "After any accepted setMaxSelectedProviders a batch that worked still works. False: multiples of 2^32 and values from 2^64. Partial: values below 2^32 under the conditions of C36; missing: larger values, for which C81_limit_exactly says exactly which work."
  },
  {
   "property": "C82",
   "status": "partial",
   "theorems": [
    "C82_idle_exactly",
    "C82_batch_moves_refuted",
    "C82_batch_moves_partial"
   ],
   "note": "A successful unDelegatePending takes at least 1 EGLD out of the queue. False: a sole stake that exceeds the queue by less than 1 EGLD. Partial: first provider with net stake holds at most the amount or at least 1 EGLD more; missing: in between. C82_idle_exactly says exactly when nothing is un-delegated."
  },
  {
   "property": "C83",
   "status": "proved",
   "theorems": [
    "C83_promises_explained",
    "C83_promises_covered"
   ],
   "note": "Holds without assuming honest providers; their losses and gains are explicit terms."
  },
  {
   "property": "C84",
   "status": "partial",
   "theorems": [
    "C84_loss_shared_refuted",
    "C84_shortfall_stays_partial"
   ],
   "note": "False: losses are never recognised, so the first to withdraw is paid in full and later holders find nothing (refuted by a concrete history). Proved instead: the shortfall is exactly the net loss of the providers and nothing but their later gains, donations or forfeited tokens makes up for it. Missing: any fair sharing."
  },
  {
   "property": "C85",
   "status": "proved",
   "theorems": [
    "C85_delegate_batch_accepted"
   ],
   "note": "The hypothesis on the list length excludes lists of 2^32 providers."
  },
  {
   "property": "C86",
   "status": "proved",
   "theorems": [
    "C86_undelegate_batch_accepted"
   ],
   "note": "The hypothesis on the list length excludes lists of 2^32 providers; every selection limit is covered."
  },
  {
   "property": "C87",
   "status": "proved",
   "theorems": [
    "C87_one_token",
    "C87_same_token"
   ],
   "note": "keeps_period excludes a change of the unbonding period between the two redemptions; after a change and a change back the two nonces can differ."
  },
  {
   "property": "C88",
   "status": "proved",
   "theorems": [
    "C88_accepted"
   ],
   "note": "For the two batch endpoints lists of 2^32 providers are excluded."
  },
  {
   "property": "C89",
   "status": "proved",
   "theorems": [
    "C89_booked",
    "C89_refused"
   ],
   "note": ""
  },
  {
   "property": "C90",
   "status": "proved",
   "theorems": [
    "C90_group_gain",
    "C90_group_gain_empty"
   ],
   "note": ""
  },
  {
   "property": "C91",
   "status": "proved",
   "theorems": [
    "C91_price_steady"
   ],
   "note": ""
  },
  {
   "property": "C92",
   "status": "proved",
   "theorems": [
    "C92_any_order",
    "C92_same_provider"
   ],
   "note": ""
  },
  {
   "property": "C93",
   "status": "proved",
   "theorems": [
    "C93_turn_to_stake",
    "C93_turn_to_unstake",
    "C93_not_passed_over",
    "C93_not_passed_over_unstaking"
   ],
   "note": ""
  },
  {
   "property": "C94",
   "status": "proved",
   "theorems": [
    "C94_lost_replies",
    "C94_lost_replies_total",
    "C94_abort",
    "C94_nothing_lost"
   ],
   "note": ""
  },
  {
   "property": "C95",
   "status": "proved",
   "theorems": [
    "C95_delegation_amounts",
    "C95_undelegation_amounts"
   ],
   "note": ""
  },
  {
   "property": "C96",
   "status": "proved",
   "theorems": [
    "C96_views_answer",
    "C96_views_add_up",
    "C96_reserve_from_views",
    "C96_views_true"
   ],
   "note": ""
  },
  {
   "property": "C97",
   "status": "proved",
   "theorems": [
    "C97_ways_out",
    "C97_received_at_most",
    "C97_operators_take_nothing"
   ],
   "note": ""
  },
  {
   "property": "C98",
   "status": "proved",
   "theorems": [
    "C98_ls_tokens_appear",
    "C98_unstake_tokens_appear"
   ],
   "note": ""
  },
  {
   "property": "C99",
   "status": "proved",
   "theorems": [
    "C99_deployed_when",
    "C99_deployed_state",
    "C99_nothing_before",
    "C99_first_deposit"
   ],
   "note": ""
  },
  {
   "property": "C100",
   "status": "proved",
   "theorems": [
    "C100_settles",
    "C100_refusals_settle",
    "C100_paid_from_anywhere"
   ],
   "note": ""
  },
  {
   "property": "C101",
   "status": "proved",
   "theorems": [
    "C101_nothing_else",
    "C101_history"
   ],
   "note": ""
  },
  {
   "property": "C102",
   "status": "proved",
   "theorems": [
    "C102_queue_drains"
   ],
   "note": ""
  },
  {
   "property": "C103",
   "status": "proved",
   "theorems": [
    "C103_proportional",
    "C103_late_deposit"
   ],
   "note": ""
  },
  {
   "property": "C104",
   "status": "proved",
   "theorems": [
    "C104_pot_lasts",
    "C104_paid_later",
    "C104_order_irrelevant"
   ],
   "note": ""
  },
  {
   "property": "C105",
   "status": "proved",
   "theorems": [
    "C105_together",
    "C105_from_anywhere",
    "C105_without_deposit"
   ],
   "note": ""
  },
  {
   "property": "C106",
   "status": "proved",
   "theorems": [
    "C106_settings",
    "C106_managers",
    "C106_records"
   ],
   "note": ""
  },
  {
   "property": "C107",
   "status": "proved",
   "theorems": [
    "C107_vouched",
    "C107_out_until_put_back"
   ],
   "note": ""
  },
  {
   "property": "C108",
   "status": "proved",
   "theorems": [
    "C108_events_tell_all"
   ],
   "note": ""
  },
  {
   "property": "C109",
   "status": "proved",
   "theorems": [
    "C109_alike",
    "C109_histories",
    "C109_reachable",
    "C109_any_two",
    "C109_newcomers"
   ],
   "note": ""
  },
  {
   "property": "C110",
   "status": "proved",
   "theorems": [
    "C110_record",
    "C110_receipt",
    "C110_scoring",
    "C110_values"
   ],
   "note": ""
  },
  {
   "property": "C111",
   "status": "proved",
   "theorems": [
    "C111_no_overlap",
    "C111_not_reserved"
   ],
   "note": ""
  },
  {
   "property": "C112",
   "status": "proved",
   "theorems": [
    "C112_linked_list",
    "C112_vector",
    "C112_last_word",
    "C112_nothing_left",
    "C112_own_entries"
   ],
   "note": ""
  },
  {
   "property": "C113",
   "status": "proved",
   "theorems": [
    "C113_storage",
    "C113_small_inputs"
   ],
   "note": ""
  },
  {
   "property": "C114",
   "status": "proved",
   "theorems": [
    "C114_calls",
    "C114_one_meaning",
    "C114_callable",
    "C114_no_effect",
    "C114_deployment",
    "C114_histories",
    "C114_storage"
   ],
   "note": ""
  },
  {
   "property": "C115",
   "status": "proved",
   "theorems": [
    "C115_views",
    "C115_always",
    "C115_only_views",
    "C115_arguments"
   ],
   "note": "getLsTokenId and getUnstakeTokenId are not modelled (token identifiers are not)."
  },
  {
   "property": "C116",
   "status": "proved",
   "theorems": [
    "C116_events",
    "C116_no_confusion",
    "C116_observer"
   ],
   "note": ""
  },
  {
   "property": "C117",
   "status": "proved",
   "theorems": [
    "C117_a_history",
    "C117_books",
    "C117_executes"
   ],
   "note": ""
  },
  {
   "property": "C118",
   "status": "proved",
   "theorems": [
    "C118_outcomes",
    "C118_never_refused",
    "C118_order_needed"
   ],
   "note": ""
  },
  {
   "property": "C119",
   "status": "proved",
   "theorems": [
    "C119_conserved",
    "C119_mock_balance",
    "C119_covered",
    "C119_can_run_short"
   ],
   "note": ""
  },
  {
   "property": "C120",
   "status": "proved",
   "theorems": [
    "C120_settles",
    "C120_everybody_leaves",
    "C120_from_anywhere"
   ],
   "note": ""
  },
  {
   "property": "C121",
   "status": "proved",
   "theorems": [
    "C121_own_units",
    "C121_table",
    "C121_final"
   ],
   "note": ""
  },
  {
   "property": "C122",
   "status": "proved",
   "theorems": [
    "C122_sendable",
    "C122_callbacks",
    "C122_received",
    "C122_one_call",
    "C122_history"
   ],
   "note": ""
  },
  {
   "property": "C123",
   "status": "partial",
   "theorems": [
    "C123_methods_refuted",
    "C123_methods_partial",
    "C123_payments",
    "C123_out_of_reach",
    "C123_within_reach",
    "C123_deployment",
    "C123_answers_refuted",
    "C123_info_never",
    "C123_answers_partial",
    "C123_always_partial"
   ],
   "note": "refuted as stated: delegate_rewards and rewards_reserve name functions the contract does not have (C123_methods_refuted, C123_answers_refuted), the answer of getDelegationContractInfo can never be read (C123_info_never), claimFees is out of reach (C123_out_of_reach); proved for every other method and question"
  },
  {
   "property": "C124",
   "status": "partial",
   "theorems": [
    "C124_deployment",
    "C124_commands_refuted",
    "C124_commands_partial",
    "C124_misnamed",
    "C124_no_whitelisting",
    "C124_unanswered",
    "C124_answered",
    "C124_never_staked",
    "C124_start"
   ],
   "note": "refuted as stated: four commands name functions the contract does not have (C124_commands_refuted, C124_misnamed), whitelisting sends no EGLD (C124_no_whitelisting), three questions are never answered (C124_unanswered); proved for deployment and all other commands and questions, and that histories of the script take deposits (C124_start) but never stake (C124_never_staked)"
  },
  {
   "property": "C125",
   "status": "proved",
   "theorems": [
    "C125_no_difference",
    "C125_ignored",
    "C125_replaced",
    "C125_rounds_are_dead",
    "C125_list_is_exact",
    "C125_blind_to_stakes"
   ],
   "note": "non-interference, both ways: what is not in the list changes nothing, what is in it changes something"
  },
  {
   "property": "C126",
   "status": "proved",
   "theorems": [
    "C126_exactly_when",
    "C126_first_blocks_all",
    "C126_outsiders",
    "C126_unstaking_unharmed"
   ],
   "note": "exact form of the partial C47: iff characterisation, permanence, outsiders, unstaking"
  },
  {
   "property": "C127",
   "status": "proved",
   "theorems": [
    "C127_is_a_vault",
    "C127_nothing_else_matters",
    "C127_every_vault"
   ],
   "note": "refinement of the pool to an abstract vault, in both directions"
  },
  {
   "property": "C128",
   "status": "proved",
   "theorems": [
    "C128_price_history",
    "C128_dust_small",
    "C128_holder"
   ],
   "note": "exact fractions (QArith of the standard library, no axioms)"
  },
  {
   "property": "C129",
   "status": "partial",
   "theorems": [
    "C129_snipe_refuted",
    "C129_share_partial"
   ],
   "note": "EGLD that was never staked earns nothing. False: a deposit made while the reply to claimRewards is under way shares in those rewards and can be redeemed at once (C129_snipe_refuted: 1000 EGLD in, more than 1001 EGLD out, same epoch, no provider involved). Partial: a deposit gets exactly its part, share by share, of the gains booked while it is in; missing: that it had earned them."
  },
  {
   "property": "C130",
   "status": "proved",
   "theorems": [
    "C130_deposit",
    "C130_redeem"
   ],
   "note": "both bounds are in whole units, with no hypothesis on the traders"
  },
  {
   "property": "C131",
   "status": "proved",
   "theorems": [
    "C131_withdraw",
    "C131_rewards",
    "C131_managers"
   ],
   "note": "deposits and redemptions are not like this: they round each time (C130 bounds the difference)"
  },
  {
   "property": "C132",
   "status": "proved",
   "theorems": [
    "C132_any_time"
   ],
   "note": "C132_covered_needed shows by example that the pot must cover the withdrawals"
  },
  {
   "property": "C133",
   "status": "proved",
   "theorems": [
    "C133_claims"
   ],
   "note": "an accumulator that calls back is the subject of C46"
  },
  {
   "property": "C134",
   "status": "proved",
   "theorems": [
    "C134_withdrawals"
   ],
   "note": "EGLD sent along with a withdrawal stays with the contract (C53)"
  },
  {
   "property": "C135",
   "status": "proved",
   "theorems": [
    "C135_essence"
   ],
   "note": "joins C133 and C134 with the fact that what is refused leaves nothing behind (the reverting of refused transactions is part of the modelled VM)"
  }
 ]
}