{"id": "C01", "title": "Liquid solvency", "statement": "At every moment the EGLD balance held by the contract is at least getPendingEGLDForDelegate + getTotalWithdrawnEgld + getFeesReserve.", "quantifier": "every deployment, every finite history of transactions (any callers, any amounts), every provider outcome and every order of delivery of asynchronous replies, including callbacks that abort", "why_tests_cant": "the claim ranges over unbounded histories and reply orders; a test only samples one schedule", "anchors": ["liquid-staking/src/lib.rs: delegate, un_delegate, withdraw", "liquid-staking/src/manage.rs: delegate_pending, claim_fees", "liquid-staking/src/callback.rs", "liquid-staking/src/migrate.rs: add_rewards, migrate_pending"]}
{"id": "C02", "title": "Payouts never bounce", "statement": "No endpoint call and no callback ever aborts because the contract has too little EGLD, too few LS tokens or too few unstake tokens to perform a transfer or burn it has decided on (instant redemption, withdraw, batch delegation, fee claim, refund).", "quantifier": "every deployment, every finite history of transactions (any callers, any amounts), every provider outcome and every order of delivery of asynchronous replies", "why_tests_cant": "needs the solvency invariant of every reachable state", "anchors": ["liquid-staking/src/utils/un_delegation.rs: process_instant_redemption", "liquid-staking/src/lib.rs: withdraw", "liquid-staking/src/manage.rs: delegate_pending, claim_fees", "liquid-staking/src/callback.rs: whitelist_delegation_contract_callback"]}
{"id": "C03", "title": "LS supply equals tokens in existence", "statement": "getLsSupply always equals the sum of the LS token balances of all accounts.", "quantifier": "every deployment, every finite history of transactions (any callers, any amounts), every provider outcome and every order of delivery of asynchronous replies", "why_tests_cant": "invariant over all histories", "anchors": ["liquid-staking/src/liquidity_pool.rs: pool_add_liquidity, pool_remove_liquidity, mint_ls_token, burn_ls_token", "liquid-staking/src/contexts/base.rs: Drop for StorageCache"]}
{"id": "C04", "title": "Every unstake token is backed one for one", "statement": "The unstake tokens held by users (plus any they gave away to the contract) equal getPendingEGLDForUnDelegate + un-delegations in flight + getPendingEgldForUnbond + getTotalWithdrawnEgld, plus the un-delegations whose callback aborted.", "quantifier": "every deployment, every finite history of transactions (any callers, any amounts), every provider outcome and every order of delivery of asynchronous replies", "why_tests_cant": "a conservation law across asynchronous phases and all interleavings", "anchors": ["liquid-staking/src/utils/un_delegation.rs: undelegate_amount", "liquid-staking/src/manage.rs: un_delegate_pending", "liquid-staking/src/callback.rs: remove_liquidity_callback, withdraw_tokens_callback", "liquid-staking/src/lib.rs: withdraw"]}
{"id": "C05", "title": "The virtual reserve is fully backed", "statement": "getVirtualEgldReserve + queued and in-flight un-delegations equals pending EGLD + EGLD recorded as staked at providers + delegations in flight, up to the net amount brought in through the migration endpoints and the calls whose callback aborted.", "quantifier": "every deployment, every finite history of transactions (any callers, any amounts), every provider outcome and every order of delivery of asynchronous replies", "why_tests_cant": "a conservation law across asynchronous phases and all interleavings", "anchors": ["liquid-staking/src/liquidity_pool.rs", "liquid-staking/src/manage.rs", "liquid-staking/src/callback.rs", "liquid-staking/src/migrate.rs: migrate, migrate_pending"]}
{"id": "C06", "title": "In-flight bookkeeping per provider", "statement": "For each provider the recorded pending staking (un-staking) amount is exactly the sum of its delegate (unDelegate) calls that have not been answered yet, as long as no callback aborted; it is never smaller in any history.", "quantifier": "every deployment, every finite history of transactions (any callers, any amounts), every provider outcome and every order of delivery of asynchronous replies", "why_tests_cant": "concurrency of several outstanding promises per provider", "anchors": ["liquid-staking/src/manage.rs: delegate_pending, un_delegate_pending", "liquid-staking/src/callback.rs: add_liquidity_callback, remove_liquidity_callback"]}
{"id": "C07", "title": "The exchange rate never decreases", "statement": "Reserve per LS token never decreases over any part of a history during which the supply stays positive.", "quantifier": "every deployment, every finite history of transactions (any callers, any amounts), every provider outcome and every order of delivery of asynchronous replies", "why_tests_cant": "rounding directions must be right for every pair of amounts and every order of operations", "anchors": ["liquid-staking/src/liquidity_pool.rs: get_ls_amount, get_egld_amount", "liquid-staking/src/callback.rs: claim_rewards_callback", "liquid-staking/src/views.rs: get_exchange_rate"]}
{"id": "C08", "title": "One LS token is always worth at least one EGLD", "statement": "getVirtualEgldReserve >= getLsSupply in every reachable state, and the reserve is never zero while LS tokens exist.", "quantifier": "every deployment, every finite history of transactions (any callers, any amounts), every provider outcome and every order of delivery of asynchronous replies", "why_tests_cant": "invariant over all histories", "anchors": ["liquid-staking/src/liquidity_pool.rs", "liquid-staking/src/callback.rs"]}
{"id": "C09", "title": "No profit from trading with the pool", "statement": "Any history, by any users, that never redeems the whole supply and brings the LS supply back to where it started leaves the reserve at least as large as it started (so the EGLD taken out is at most the EGLD put in); in particular delegate followed by unDelegate of the minted tokens never returns more than was paid.", "quantifier": "every pool state and every finite sequence of deposits and redemptions", "why_tests_cant": "unbounded sequences, all rounding cases", "anchors": ["liquid-staking/src/liquidity_pool.rs: pool_add_liquidity, pool_remove_liquidity"]}
{"id": "C10", "title": "Fair rounding of mint and redeem", "statement": "A deposit of a EGLD mints exactly the largest integer m with m*reserve <= a*supply; a redemption of x tokens pays exactly the largest integer e with e*supply <= x*reserve. The loss is below one unit of the price.", "quantifier": "all reserves, supplies and amounts", "why_tests_cant": "all integers", "anchors": ["liquid-staking/src/liquidity_pool.rs: get_ls_amount, get_egld_amount"]}
{"id": "C11", "title": "Splitting an operation gains nothing", "statement": "Redeeming in two steps never yields more EGLD than redeeming at once, and depositing in two steps never mints more LS tokens than depositing at once.", "quantifier": "all pool states and all splits", "why_tests_cant": "all integers", "anchors": ["liquid-staking/src/liquidity_pool.rs"]}
{"id": "C12", "title": "Quotes are honoured", "statement": "The views getEgldPositionValue and getLsValueForPosition return exactly the LS amount (EGLD amount) that delegate (unDelegate) with that amount credits in the same state.", "quantifier": "every reachable state and every amount", "why_tests_cant": "all states and amounts", "anchors": ["liquid-staking/src/views.rs: get_ls_value_for_position, get_egld_position_value", "liquid-staking/src/lib.rs: delegate, un_delegate"]}
{"id": "C13", "title": "Full exit", "statement": "Redeeming the whole supply pays out the whole reserve, and the quotes of any family of positions that together do not exceed the supply never add up to more than the reserve.", "quantifier": "all states and all families of positions", "why_tests_cant": "all partitions of the supply", "anchors": ["liquid-staking/src/liquidity_pool.rs: get_egld_amount"]}
{"id": "C14", "title": "getExchangeRate is a faithful lower quote", "statement": "getExchangeRate is 10^18 when no LS token exists and otherwise the floor of 10^18*reserve/supply; it never decreases while supply stays positive and is never below 10^18.", "quantifier": "every deployment, every finite history of transactions (any callers, any amounts), every provider outcome and every order of delivery of asynchronous replies", "why_tests_cant": "all histories", "anchors": ["liquid-staking/src/views.rs: get_exchange_rate"]}
{"id": "C15", "title": "Matching against the opposite queue", "statement": "delegate and unDelegate split the amount in an instant part and a queued part that add up to the amount; the instant part never exceeds the opposite queue and leaves it untouched, empty or with at least 1 EGLD; matching is maximal among the splits that keep both leftovers zero or at least 1 EGLD whenever the amount and the queue are both at least 1 EGLD.", "quantifier": "all queue sizes and amounts", "why_tests_cant": "all integers around the 1 EGLD boundaries", "anchors": ["liquid-staking/src/utils/generic.rs: get_action_amount, calculate_instant_amount, calculate_partial_redeem_amount"]}
{"id": "C16", "title": "delegate: exact effect and availability", "statement": "In an active contract with the LS token issued, delegate with at least 1 EGLD succeeds whenever it would mint at least one unit, mints the quoted amount to the caller, and moves the payment into the pending and withdrawn pots without loss. A successful delegate changes nothing else.", "quantifier": "every reachable state, caller and amount", "why_tests_cant": "all states and amounts", "anchors": ["liquid-staking/src/lib.rs: delegate", "liquid-staking/src/utils/delegate.rs"]}
{"id": "C17", "title": "unDelegate: exact effect and availability", "statement": "In an active contract with tokens issued, unDelegate of a position worth at least 1 EGLD succeeds; it burns exactly the sent tokens and gives the caller exactly the quoted value as instant EGLD plus unstake tokens. A successful unDelegate changes nothing else.", "quantifier": "every reachable state, caller and amount", "why_tests_cant": "all states and amounts", "anchors": ["liquid-staking/src/lib.rs: un_delegate", "liquid-staking/src/utils/un_delegation.rs"]}
{"id": "C18", "title": "Instant redemption without fee", "statement": "If pending EGLD equals the value of the position or exceeds it by at least 1 EGLD, unDelegate pays the full value immediately and creates no unstake token.", "quantifier": "every reachable state and amount", "why_tests_cant": "all states", "anchors": ["liquid-staking/src/utils/generic.rs: can_perform_instant_action", "liquid-staking/src/utils/un_delegation.rs: process_instant_redemption"]}
{"id": "C19", "title": "The unbonding lock is never bypassed", "statement": "The unstake tokens handed out by unDelegate at epoch e with unbonding period P carry release epoch e+P (as long as e+P fits in 64 bits), their release epoch never changes afterwards, and withdraw only accepts tokens whose release epoch has been reached.", "quantifier": "every deployment, every finite history of transactions (any callers, any amounts), every provider outcome and every order of delivery of asynchronous replies", "why_tests_cant": "nonces are shared and recycled across epochs and period changes", "anchors": ["liquid-staking/src/liquidity_pool.rs: mint_unstake_tokens, clean_old_unbond_epochs", "liquid-staking/src/utils/un_delegation.rs: undelegate_amount", "liquid-staking/src/lib.rs: withdraw"]}
{"id": "C20", "title": "withdraw: pays exactly what it burns", "statement": "A successful withdraw pays the caller exactly the amount of unstake tokens it burns, which is the smaller of the tokens sent and getTotalWithdrawnEgld; the rest of the tokens is returned; getTotalWithdrawnEgld drops by the same amount and nothing else changes. It fails if the second or later token finds the pot empty.", "quantifier": "every reachable state and every list of payments", "why_tests_cant": "lists of arbitrary length", "anchors": ["liquid-staking/src/lib.rs: withdraw"]}
{"id": "C21", "title": "A drained pipeline serves everybody", "statement": "When no un-delegation is queued, in flight or unbonding, the withdrawn pot covers every unstake token still held, so any holder of matured tokens can withdraw them in full.", "quantifier": "every deployment, every finite history of transactions (any callers, any amounts), every provider outcome and every order of delivery of asynchronous replies", "why_tests_cant": "needs the backing invariant of all histories", "anchors": ["liquid-staking/src/lib.rs: withdraw", "liquid-staking/src/callback.rs: withdraw_tokens_callback"]}
{"id": "C22", "title": "Unstake token machinery never fails", "statement": "In every reachable state: a release epoch maps to a nonce whose attributes carry that release epoch and of which the contract still holds a unit, so adding quantity, reading attributes and cleaning the previous nonce never abort and a cleaned nonce is never reused.", "quantifier": "every deployment, every finite history of transactions (any callers, any amounts), every provider outcome and every order of delivery of asynchronous replies", "why_tests_cant": "depends on the whole history of epochs and unbonding period changes", "anchors": ["liquid-staking/src/liquidity_pool.rs: mint_unstake_tokens, clean_old_unbond_epochs"]}
{"id": "C23", "title": "Bystander protection", "statement": "A transaction or callback never reduces the LS or unstake token balance of any account other than the sender of the transaction.", "quantifier": "every deployment, every finite history of transactions (any callers, any amounts), every provider outcome and every order of delivery of asynchronous replies", "why_tests_cant": "all transactions by all other accounts", "anchors": ["liquid-staking/src/lib.rs", "liquid-staking/src/liquidity_pool.rs"]}
{"id": "C24", "title": "delegatePending: a correct batch", "statement": "A successful delegatePending sends delegate calls whose amounts plus what stays pending add up to the previous pending EGLD; every call carries at least 1 EGLD, goes to a distinct whitelisted eligible provider, fits in cap - reported total stake of a capped provider, and at most getMaxSelectedProviders calls are made.", "quantifier": "every reachable state, configuration and amount", "why_tests_cant": "all provider lists, caps, scores and amounts", "anchors": ["liquid-staking/src/manage.rs: delegate_pending", "liquid-staking/src/selection.rs"]}
{"id": "C25", "title": "unDelegatePending: a correct batch", "statement": "A successful unDelegatePending issues unDelegate calls whose amounts plus what stays queued add up to the previous queue; every call asks for at least 1 EGLD, goes to a distinct whitelisted provider, never exceeds that provider's net stake and leaves it 0 or at least 1 EGLD; at most max-selected-providers calls are made.", "quantifier": "every reachable state, configuration and amount", "why_tests_cant": "all provider lists, scores and amounts", "anchors": ["liquid-staking/src/manage.rs: un_delegate_pending", "liquid-staking/src/selection.rs"]}
{"id": "C26", "title": "Failed delegations are rolled back", "statement": "When a provider rejects a delegate call, the whole amount returns to pending EGLD, the provider stops being eligible, its pending staking amount drops by the amount and nothing else changes; when it accepts, the amount becomes recorded stake.", "quantifier": "every reachable state and outstanding call", "why_tests_cant": "all states", "anchors": ["liquid-staking/src/callback.rs: add_liquidity_callback"]}
{"id": "C27", "title": "Failed un-delegations are requeued", "statement": "When a provider rejects an unDelegate call the amount returns to the un-delegation queue; when it accepts, the amount moves from recorded stake to recorded unbonding and to getPendingEgldForUnbond; nothing else changes.", "quantifier": "every reachable state and outstanding call", "why_tests_cant": "all states", "anchors": ["liquid-staking/src/callback.rs: remove_liquidity_callback"]}
{"id": "C28", "title": "Withdrawn EGLD is credited exactly", "statement": "The reply to withdrawPending moves exactly the EGLD received from getPendingEgldForUnbond and from the provider's unbonding record to getTotalWithdrawnEgld; an empty reply changes nothing.", "quantifier": "every reachable state, provider and amount", "why_tests_cant": "all states", "anchors": ["liquid-staking/src/callback.rs: withdraw_tokens_callback"]}
{"id": "C29", "title": "Callbacks do not abort in order", "statement": "If replies of each provider are delivered in the order the provider executed the calls, fees are at most 100%, whitelisting happens after the LS token is issued and whitelist deposits can mint at least one unit, and providers leave the stake alone, then no callback ever aborts.", "quantifier": "every history with per-provider ordered delivery", "why_tests_cant": "all interleavings", "anchors": ["liquid-staking/src/callback.rs"]}
{"id": "C30", "title": "Recorded stake equals real stake", "statement": "Under the same conditions (and if providers leave the stake alone), once no call to a provider is outstanding, the recorded staked and unbonding amounts equal what the provider really holds for the contract; in general they differ exactly by the answered but undelivered calls.", "quantifier": "every history with per-provider ordered delivery", "why_tests_cant": "all interleavings", "anchors": ["liquid-staking/src/callback.rs", "liquid-staking/src/views.rs: get_delegation_contract_staked_amount"]}
{"id": "C31", "title": "Reward split", "statement": "A reward of r adds floor(r*fee/10000) to the fee reserve and exactly the rest to both pending EGLD and the reserve, mints nothing, and no other pot changes.", "quantifier": "every reachable state, reward and fee up to 100%", "why_tests_cant": "all integers", "anchors": ["liquid-staking/src/callback.rs: claim_rewards_callback", "liquid-staking/src/utils/generic.rs: calculate_share"]}
{"id": "C32", "title": "Whitelisting is all or nothing", "statement": "If the provider rejects the whitelisting stake, its record is erased, the full payment goes back to the caller and it can be whitelisted again; if it accepts, it joins both lists once, the stake is recorded and the caller gets LS tokens at the current rate. A listed provider is never removed.", "quantifier": "every deployment, every finite history of transactions (any callers, any amounts), every provider outcome and every order of delivery of asynchronous replies", "why_tests_cant": "replies may arrive after arbitrarily many other transactions", "anchors": ["liquid-staking/src/delegation.rs: whitelist_delegation_contract", "liquid-staking/src/callback.rs: whitelist_delegation_contract_callback"]}
{"id": "C33", "title": "The two provider lists stay consistent", "statement": "getDelegationAddressesList and getUnDelegationAddressesList never contain duplicates, always contain the same providers, and every listed provider has a record; a batch moves exactly the served providers to the back in order and keeps the relative order of the others.", "quantifier": "every deployment, every finite history of transactions (any callers, any amounts), every provider outcome and every order of delivery of asynchronous replies", "why_tests_cant": "all histories of rotations", "anchors": ["liquid-staking/src/utils/generic.rs: move_delegation_contract_to_back, move_un_delegation_contract_to_back", "liquid-staking/src/manage.rs"]}
{"id": "C34", "title": "Scoring prefers better providers", "statement": "When delegating, a provider with no more nodes, no less APY and no more stake than another never scores lower; when un-delegating the order is reversed. Each category score is at most max_score*10000^(k-1) (k the exponent of the category, taken modulo 2^32), except that the stake category of a list without any stake is fixed at max_score^(k+1)/10000.", "quantifier": "all providers, totals and configurations with distinct bounds", "why_tests_cant": "all integers", "anchors": ["liquid-staking/src/score.rs"]}
{"id": "C35", "title": "Proportional distribution", "statement": "The score-proportional shares of a batch never add up to more than the amount, so the remaining amount never limits a delegation share, and if the top scored provider is not limited by its cap at least one provider is served.", "quantifier": "all score vectors and amounts", "why_tests_cant": "all vectors", "anchors": ["liquid-staking/src/selection.rs: calculate_provider_amount, distribute_amount"]}
{"id": "C36", "title": "Un-delegation selection does not abort", "statement": "If every listed provider's net stake is zero or at least 1 EGLD, the limits fit in 64/32 bits and the scoring bounds are distinct, provider selection for un-delegation cannot abort on arithmetic, and the batch leaves every net stake zero or at least 1 EGLD.", "quantifier": "all provider tables and amounts", "why_tests_cant": "all tables", "anchors": ["liquid-staking/src/selection.rs: select_undelegation_providers, calculate_provider_amount, handle_remaining_amount"]}
{"id": "C37", "title": "Owner-only configuration", "statement": "Owner endpoints called by anybody else fail and change nothing.", "quantifier": "every state, caller and argument", "why_tests_cant": "all callers", "anchors": ["liquid-staking/src/config.rs", "liquid-staking/src/migrate.rs: add_migration_sc_address"]}
{"id": "C38", "title": "Manager-only operations", "statement": "delegatePending, unDelegatePending, withdrawPending, claimRewards, whitelistDelegationContract, changeDelegationContractAdmin and setScoringConfig fail and change nothing unless called by the owner or a manager; the manager set changes only by owner calls, which add and remove exactly the named addresses, and never lists an address twice.", "quantifier": "every deployment, every finite history of transactions (any callers, any amounts), every provider outcome and every order of delivery of asynchronous replies", "why_tests_cant": "all callers and histories", "anchors": ["liquid-staking/src/config.rs: is_manager", "liquid-staking/src/manage.rs", "liquid-staking/src/delegation.rs"]}
{"id": "C39", "title": "Provider parameters are isolated", "statement": "changeDelegationContractParams succeeds only for the provider's admin, a manager or the owner, keeps cap = 0 or cap >= reported stake, and changes only the five reported parameters of that provider, never any recorded stake.", "quantifier": "every state, caller and argument", "why_tests_cant": "all states", "anchors": ["liquid-staking/src/delegation.rs: change_delegation_contract_params"]}
{"id": "C40", "title": "Pausing", "statement": "While the contract is inactive, delegate, unDelegate, withdraw, delegatePending, unDelegatePending, withdrawPending and claimRewards fail and change nothing, while replies to earlier calls are still booked.", "quantifier": "every state, caller and argument", "why_tests_cant": "all states", "anchors": ["liquid-staking/src/utils/generic.rs: is_state_active", "liquid-staking/src/config.rs: set_state_inactive"]}
{"id": "C41", "title": "Migration is restricted", "statement": "migrate and migratePending succeed only when called by the registered migration smart contract; migrate mints at the current rate to it; migratePending only adds to pending EGLD.", "quantifier": "every state, caller and amount", "why_tests_cant": "all states", "anchors": ["liquid-staking/src/migrate.rs"]}
{"id": "C42", "title": "Configuration bounds", "statement": "After deployment the maximum number of selected providers and of addresses is always at least 1, and every provider record has cap 0 or cap >= reported total stake.", "quantifier": "every deployment, every finite history of transactions (any callers, any amounts), every provider outcome and every order of delivery of asynchronous replies", "why_tests_cant": "all histories", "anchors": ["liquid-staking/src/lib.rs: init", "liquid-staking/src/config.rs", "liquid-staking/src/delegation.rs"]}
{"id": "C43", "title": "Token ids are set once", "statement": "Once the LS token or the unstake token is issued no history can replace it, and until the LS token is issued no user endpoint succeeds.", "quantifier": "every deployment, every finite history of transactions (any callers, any amounts), every provider outcome and every order of delivery of asynchronous replies", "why_tests_cant": "all histories", "anchors": ["liquid-staking/src/config.rs: register_ls_token, register_unstake_token", "liquid-staking/src/contexts/base.rs: StorageCache::new"]}
{"id": "C44", "title": "Events tell the truth", "statement": "Every liquidity event emitted by a successful transaction or callback carries exactly the supply, reserve, fee, withdrawn, pending, un-stake and un-bond values stored when it completes.", "quantifier": "every deployment, every finite history of transactions (any callers, any amounts), every provider outcome and every order of delivery of asynchronous replies", "why_tests_cant": "all transactions in all states", "anchors": ["liquid-staking/src/events.rs", "liquid-staking/src/contexts/base.rs"]}
{"id": "C45", "title": "claimFees pays only fees", "statement": "A successful claimFees sends exactly the fee reserve to the accumulator and sets it to zero; no other pot changes; it fails when the reserve is zero.", "quantifier": "every state and caller", "why_tests_cant": "all states", "anchors": ["liquid-staking/src/manage.rs: claim_fees"]}
{"id": "C46", "title": "claimFees is safe under re-entrance", "statement": "If the accumulator calls back into the contract during claimFees, the accounting (LS supply = tokens in existence) still holds.", "quantifier": "every nested sequence of calls", "why_tests_cant": "re-entrant schedules", "anchors": ["liquid-staking/src/manage.rs: claim_fees", "liquid-staking/src/contexts/base.rs: Drop for StorageCache"]}
{"id": "C47", "title": "One provider cannot block delegation", "statement": "No parameter choice by a single provider admin makes delegatePending abort for everybody.", "quantifier": "every state and parameter choice", "why_tests_cant": "adversarial parameters", "anchors": ["liquid-staking/src/selection.rs: is_delegation_provider_eligible", "liquid-staking/src/delegation.rs: change_delegation_contract_params"]}
{"id": "C48", "title": "The whitelist limit holds", "statement": "The number of listed providers never exceeds maxDelegationAddresses.", "quantifier": "every deployment, every finite history of transactions (any callers, any amounts), every provider outcome and every order of delivery of asynchronous replies", "why_tests_cant": "concurrent whitelisting", "anchors": ["liquid-staking/src/delegation.rs: whitelist_delegation_contract", "liquid-staking/src/callback.rs: whitelist_delegation_contract_callback"]}
{"id": "C49", "title": "Deposits cannot be locked out by rewards", "statement": "No permissionless call and no reward can put the pool in a state where no deposit of a realistic size can ever succeed.", "quantifier": "every deployment, every finite history of transactions (any callers, any amounts), every provider outcome and every order of delivery of asynchronous replies", "why_tests_cant": "adversarial histories", "anchors": ["liquid-staking/src/migrate.rs: add_rewards", "liquid-staking/src/liquidity_pool.rs: get_ls_amount"]}
{"id": "C50", "title": "Scoring weights sum to 100", "statement": "An accepted scoring configuration has weights that sum to 100.", "quantifier": "all 64-bit weight triples", "why_tests_cant": "wrap-around arithmetic", "anchors": ["liquid-staking/src/config.rs: set_scoring_config"]}
{"id": "C51", "title": "Callbacks tolerate any order", "statement": "Replies delivered out of order never abort a callback or lose track of un-delegated EGLD.", "quantifier": "every delivery order", "why_tests_cant": "adversarial schedules", "anchors": ["liquid-staking/src/callback.rs: remove_liquidity_callback"]}
{"id": "C52", "title": "Any accepted fee lets rewards in", "statement": "For every fee value accepted by setFees the reward callback succeeds.", "quantifier": "all fee values", "why_tests_cant": "configuration space", "anchors": ["liquid-staking/src/config.rs: set_fees", "liquid-staking/src/callback.rs: claim_rewards_callback"]}
{"id": "C53", "title": "withdraw never swallows EGLD", "statement": "No successful user call leaves EGLD sent with it unaccounted for in the contract.", "quantifier": "every user call", "why_tests_cant": "unusual payment combinations", "anchors": ["liquid-staking/src/lib.rs: withdraw"]}
{"id": "C54", "title": "The un-delegation queue can always move on", "statement": "A non-empty un-delegation queue in a quiet active contract with enough stake at providers can be processed by unDelegatePending.", "quantifier": "every deployment, every finite history of transactions (any callers, any amounts), every provider outcome and every order of delivery of asynchronous replies", "why_tests_cant": "edge-case histories", "anchors": ["liquid-staking/src/manage.rs: un_delegate_pending", "liquid-staking/src/selection.rs: handle_remaining_amount"]}
{"id": "C55", "title": "Provider failures do not block batches", "statement": "After any provider failures the batch endpoints still do not abort on arithmetic.", "quantifier": "every deployment, every finite history of transactions (any callers, any amounts), every provider outcome and every order of delivery of asynchronous replies", "why_tests_cant": "adversarial schedules", "anchors": ["liquid-staking/src/structs.rs: get_total_amount_with_pending_callbacks", "liquid-staking/src/selection.rs"]}
{"id": "C56", "title": "Provider caps hold over several batches", "statement": "Recorded stake plus delegations in flight of a capped provider never exceed cap minus the stake reported by others, over any number of batches.", "quantifier": "every deployment, every finite history of transactions (any callers, any amounts), every provider outcome and every order of delivery of asynchronous replies", "why_tests_cant": "multi-batch histories", "anchors": ["liquid-staking/src/selection.rs: create_selection_info, is_delegation_provider_eligible"]}
{"id": "C57", "title": "Whitelisting never strands the payment", "statement": "The payment of a successful whitelistDelegationContract call is always either returned or turned into LS tokens and recorded stake.", "quantifier": "every deployment, every finite history of transactions (any callers, any amounts), every provider outcome and every order of delivery of asynchronous replies", "why_tests_cant": "timing of token issuance", "anchors": ["liquid-staking/src/delegation.rs: whitelist_delegation_contract", "liquid-staking/src/callback.rs"]}
{"id": "C58", "title": "Accepted scoring configurations work", "statement": "With any accepted scoring configuration the batch endpoints do not abort on arithmetic.", "quantifier": "all configurations", "why_tests_cant": "configuration space", "anchors": ["liquid-staking/src/score.rs: norm_linear_clamp", "liquid-staking/src/config.rs: set_scoring_config"]}
{"id": "C59", "title": "delegatePending makes progress", "statement": "In an active contract with at least one eligible uncapped provider, a successful delegatePending delegates something.", "quantifier": "all provider tables", "why_tests_cant": "list order adversary", "anchors": ["liquid-staking/src/selection.rs: select_delegation_providers"]}
{"id": "C60", "title": "A depositor never loses a material share", "statement": "A successful deposit of at least 1 EGLD loses at most a negligible part of its value to rounding.", "quantifier": "every deployment, every finite history of transactions (any callers, any amounts), every provider outcome and every order of delivery of asynchronous replies", "why_tests_cant": "donation attack histories", "anchors": ["liquid-staking/src/liquidity_pool.rs: get_ls_amount", "liquid-staking/src/migrate.rs: add_rewards"]}
{"id": "C61", "title": "Provider mock is an admissible provider", "statement": "The delegation contract mock never returns on withdraw more than was un-delegated, never un-delegates more than was deposited, and keeps deposit + unbonding equal to what was delegated minus withdrawn.", "quantifier": "every history of calls to the mock", "why_tests_cant": "all histories", "anchors": ["delegation-mock/src/delegation.rs"]}
{"id": "C62", "title": "Reward manager mock pays what it reports", "statement": "claimMulti of the manager mock returns to the caller exactly the sum of the rewards paid by the listed contracts and reports the same number.", "quantifier": "all lists of contracts", "why_tests_cant": "all lists", "anchors": ["delegation-manager-mock/src/delegation_manager.rs"]}
{"id": "C63", "title": "Setters store what they say", "statement": "Each configuration endpoint, when accepted, comes from the owner (setScoringConfig also from a manager), changes exactly the value it names to its argument and nothing else in the whole contract, and every value inside the checked range is accepted.", "quantifier": "every state, caller and argument", "why_tests_cant": "all states and arguments", "anchors": ["liquid-staking/src/config.rs", "liquid-staking/src/migrate.rs: add_migration_sc_address"]}
{"id": "C64", "title": "Operators ask exactly the providers", "statement": "withdrawPending sends exactly one call to a known provider and claimRewards one call naming every listed provider; neither changes anything else; the owner and managers can always make both calls while the contract is active; and every provider with any recorded or in-flight amount is in both lists.", "quantifier": "every deployment, every finite history of transactions (any callers, any amounts), every provider outcome and every order of delivery of asynchronous replies", "why_tests_cant": "all histories", "anchors": ["liquid-staking/src/manage.rs: withdraw_pending, claim_rewards"]}
{"id": "C65", "title": "addRewards", "statement": "addRewards raises the reserve, the pending EGLD and the balance by exactly the payment, mints nothing and changes nothing else, and anybody can call it once the LS token is issued, also while the contract is inactive.", "quantifier": "every state, caller and payment", "why_tests_cant": "all states", "anchors": ["liquid-staking/src/migrate.rs: add_rewards"]}
{"id": "C66", "title": "Provider admins are replaced by operators only", "statement": "changeDelegationContractAdmin succeeds exactly for the owner and managers on a known provider and replaces the admin of that provider and nothing else.", "quantifier": "every state, caller and argument", "why_tests_cant": "all states", "anchors": ["liquid-staking/src/delegation.rs: change_delegation_contract_admin"]}
{"id": "C67", "title": "Token issue", "statement": "The owner can start issuing each token exactly while it is not set; the issue cost travels with the call; a successful answer stores the token, a refusal gives the cost back to the owner and allows another try, and neither touches the other token.", "quantifier": "every state and reply", "why_tests_cant": "replies arrive after other transactions", "anchors": ["liquid-staking/src/config.rs: register_ls_token, register_unstake_token"]}
{"id": "C68", "title": "Payments are of the right kind", "statement": "A transaction is accepted only with the payment its endpoint asks for: EGLD for delegate, one positive LS payment for unDelegate, unstake tokens for withdraw, at least 1 EGLD for whitelisting, nothing for the rest.", "quantifier": "every state, caller, endpoint and payment list", "why_tests_cant": "all payment lists", "anchors": ["liquid-staking/src/lib.rs", "liquid-staking/src/manage.rs", "liquid-staking/src/delegation.rs", "liquid-staking/src/config.rs", "liquid-staking/src/migrate.rs"]}
{"id": "C69", "title": "Delegation batches follow the scores", "statement": "The providers served by delegatePending are, in list order, those among the first eligible ones whose score-proportional share, cut by their free space, is at least 1 EGLD; each gets at least that share, and the rest goes to the earliest with room; the score is the weighted sum of the three categories of the scoring configuration.", "quantifier": "every deployment, every finite history of transactions (any callers, any amounts), every provider outcome and every order of delivery of asynchronous replies", "why_tests_cant": "all provider tables, configurations and amounts", "anchors": ["liquid-staking/src/selection.rs", "liquid-staking/src/score.rs", "liquid-staking/src/manage.rs: delegate_pending"]}
{"id": "C70", "title": "Un-delegation batches follow the scores", "statement": "unDelegatePending considers the shortest prefix of the providers with net stake whose combined contribution covers the amount, at most the configured number (its lowest 32 bits), serves only those and in order, and when no share is dust each gets exactly its score-proportional share, the rounding rest going to the first that keeps 1 EGLD.", "quantifier": "every deployment, every finite history of transactions (any callers, any amounts), every provider outcome and every order of delivery of asynchronous replies", "why_tests_cant": "all provider tables, configurations and amounts", "anchors": ["liquid-staking/src/selection.rs", "liquid-staking/src/score.rs", "liquid-staking/src/manage.rs: un_delegate_pending"]}
{"id": "C71", "title": "The balance is explained", "statement": "After any history the EGLD balance of the contract equals the three pots plus exactly the EGLD that ever arrived unbooked (plain transfers, EGLD sent along with withdraw, replies whose callback aborted).", "quantifier": "every deployment, every finite history of transactions (any callers, any amounts), every provider outcome and every order of delivery of asynchronous replies", "why_tests_cant": "a total over whole histories", "anchors": ["liquid-staking/src/liquidity_pool.rs", "liquid-staking/src/manage.rs", "liquid-staking/src/callback.rs"]}
{"id": "C72", "title": "Fees are explained", "statement": "Over any history, fees kept plus fees handed to the accumulator equal the sum of the configured shares of the rewards booked, each rounded down.", "quantifier": "every deployment, every finite history of transactions (any callers, any amounts), every provider outcome and every order of delivery of asynchronous replies", "why_tests_cant": "a total over whole histories", "anchors": ["liquid-staking/src/callback.rs: claim_rewards_callback", "liquid-staking/src/manage.rs: claim_fees"]}
{"id": "C73", "title": "No EGLD is created or destroyed", "statement": "Over any history the EGLD of the contract, at the providers and travelling either way, plus all that left, equals all that came in.", "quantifier": "every deployment, every finite history of transactions (any callers, any amounts), every provider outcome and every order of delivery of asynchronous replies", "why_tests_cant": "a total over whole histories", "anchors": ["liquid-staking/src/lib.rs", "liquid-staking/src/manage.rs", "liquid-staking/src/callback.rs", "liquid-staking/src/delegation.rs"]}
{"id": "C74", "title": "Holding is safe", "statement": "Over any history in which an account initiates nothing, the EGLD value of its LS tokens never falls.", "quantifier": "every deployment, every finite history of transactions (any callers, any amounts), every provider outcome and every order of delivery of asynchronous replies", "why_tests_cant": "all histories of other accounts", "anchors": ["liquid-staking/src/liquidity_pool.rs", "liquid-staking/src/lib.rs"]}
{"id": "C75", "title": "The books of a provider", "statement": "The eligibility, stake, unbonding and in-flight amounts recorded for a provider move only by its own parameter change, by batches, and by the exact amount of an answered call; a record appears only by whitelisting, empty, and goes only when the whitelisting delegation failed.", "quantifier": "every state and action", "why_tests_cant": "every action is covered", "anchors": ["liquid-staking/src/callback.rs", "liquid-staking/src/delegation.rs", "liquid-staking/src/manage.rs"]}
{"id": "C76", "title": "Donations interfere with nothing", "statement": "EGLD sent to the contract outside its endpoints changes the outcome of no later action and nothing in any later state except the balance.", "quantifier": "every deployment, every finite history of transactions (any callers, any amounts), every provider outcome and every order of delivery of asynchronous replies", "why_tests_cant": "two-run comparison over all histories", "anchors": ["liquid-staking/src/lib.rs", "liquid-staking/src/manage.rs", "liquid-staking/src/callback.rs"]}
{"id": "C77", "title": "Everybody can be paid out", "statement": "From any quiet point of an orderly history an operator collecting from the providers and one deposit covering the queue suffice for every matured unstake token, and every redeemable LS amount, to be paid in full.", "quantifier": "every deployment, every finite history of transactions (any callers, any amounts), every provider outcome and every order of delivery of asynchronous replies", "why_tests_cant": "liveness over all histories", "anchors": ["liquid-staking/src/lib.rs: withdraw, un_delegate", "liquid-staking/src/manage.rs: withdraw_pending", "liquid-staking/src/callback.rs: withdraw_tokens_callback"]}
{"id": "C78", "title": "A matured unstake token can be withdrawn", "statement": "Whenever the release epoch of an unstake token has come its holder can withdraw.", "quantifier": "every deployment, every finite history of transactions (any callers, any amounts), every provider outcome and every order of delivery of asynchronous replies", "why_tests_cant": "needs the state of the whole pipeline", "anchors": ["liquid-staking/src/lib.rs: withdraw"]}
{"id": "C79", "title": "Matured tokens are paid in the order of release", "statement": "A holder whose tokens were released earlier is not left unpaid because a later release was paid first.", "quantifier": "every deployment, every finite history of transactions (any callers, any amounts), every provider outcome and every order of delivery of asynchronous replies", "why_tests_cant": "interleavings of several holders", "anchors": ["liquid-staking/src/lib.rs: withdraw"]}
{"id": "C80", "title": "New unstake tokens are never released in the past", "statement": "The release epoch of newly issued unstake tokens is never before the epoch of the redemption.", "quantifier": "every state and accepted unbonding period", "why_tests_cant": "wrap-around arithmetic", "anchors": ["liquid-staking/src/utils/un_delegation.rs: undelegate_amount", "liquid-staking/src/config.rs: set_unbond_period"]}
{"id": "C81", "title": "Accepted selection limits work", "statement": "After any accepted setMaxSelectedProviders a batch that worked before still works.", "quantifier": "all limits", "why_tests_cant": "unbounded configuration value", "anchors": ["liquid-staking/src/config.rs: set_max_selected_providers", "liquid-staking/src/selection.rs: select_undelegation_providers"]}
{"id": "C82", "title": "A successful unDelegatePending un-delegates something", "statement": "A successful unDelegatePending takes at least 1 EGLD out of the queue.", "quantifier": "all provider tables and amounts", "why_tests_cant": "dust rules interact", "anchors": ["liquid-staking/src/selection.rs: calculate_provider_amount, handle_remaining_amount"]}
{"id": "C83", "title": "Promises are covered by real assets", "statement": "After any history, getVirtualEgldReserve + the unstake tokens of the users + getFeesReserve equal the EGLD really held by the contract, staked or unbonding at the providers and travelling between them, less what was given to the contract, still has to be booked or was lost with an aborted callback, corrected by exactly the amounts migrated and the amounts providers lost or gained of their own accord.", "quantifier": "every deployment, every finite history of transactions (any callers, any amounts), every provider outcome and every order of delivery of asynchronous replies, including providers that lose stake", "why_tests_cant": "a balance sheet over real and recorded amounts for all interleavings of asynchronous calls", "anchors": ["liquid-staking/src/callback.rs", "liquid-staking/src/manage.rs", "liquid-staking/src/liquidity_pool.rs"]}
{"id": "C84", "title": "A provider's loss is borne by all holders alike", "statement": "When a provider loses stake, holders of equal claims receive equal payments.", "quantifier": "every deployment, every finite history of transactions (any callers, any amounts), every provider outcome and every order of delivery of asynchronous replies, including providers that lose stake", "why_tests_cant": "needs a provider that loses stake; the mocks never do", "anchors": ["liquid-staking/src/lib.rs: withdraw", "liquid-staking/src/callback.rs: withdraw_tokens_callback, remove_liquidity_callback"]}
{"id": "C85", "title": "When a delegation batch is accepted", "statement": "delegatePending is accepted exactly when an operator asks without payment for an amount that fits the queue, there is an eligible provider, none of the providers looked at reports more stake than its cap, and each candidate can be rated (neither range of the scoring configuration is the single point on which it sits).", "quantifier": "every deployment, every finite history of transactions (any callers, any amounts), every provider outcome and every order of delivery of asynchronous replies", "why_tests_cant": "both directions over all provider tables and configurations", "anchors": ["liquid-staking/src/manage.rs: delegate_pending", "liquid-staking/src/selection.rs", "liquid-staking/src/score.rs"]}
{"id": "C86", "title": "When an un-delegation batch is accepted", "statement": "unDelegatePending is accepted exactly when an operator asks without payment for an amount that fits the queue, no provider looked at has more requested back than delegated, and the candidates are at least one, each with at least 1 EGLD of net stake and ratable.", "quantifier": "every deployment, every finite history of transactions (any callers, any amounts), every provider outcome and every order of delivery of asynchronous replies", "why_tests_cant": "both directions over all provider tables and configurations", "anchors": ["liquid-staking/src/manage.rs: un_delegate_pending", "liquid-staking/src/selection.rs", "liquid-staking/src/score.rs"]}
{"id": "C87", "title": "One unstake token per release", "statement": "No two unstake nonces carry the same pair of redemption and release epoch, and redemptions made in the same epoch under the same unbonding period are given the same nonce.", "quantifier": "every deployment, every finite history of transactions (any callers, any amounts), every provider outcome and every order of delivery of asynchronous replies", "why_tests_cant": "all interleavings of redemptions, clean-ups and other actions", "anchors": ["liquid-staking/src/utils/un_delegation.rs", "liquid-staking/src/lib.rs: un_delegate"]}
{"id": "C88", "title": "When a transaction is accepted", "statement": "Every transaction to every endpoint is accepted exactly when it meets the published list of conditions on caller, payment, configuration, pool and provider records; nothing else can make it fail and nothing less lets it through.", "quantifier": "every deployment, every finite history of transactions (any callers, any amounts), every provider outcome and every order of delivery of asynchronous replies", "why_tests_cant": "both directions for all 28 endpoints over all states", "anchors": ["liquid-staking/src/lib.rs", "liquid-staking/src/manage.rs", "liquid-staking/src/delegation.rs", "liquid-staking/src/config.rs", "liquid-staking/src/migrate.rs"]}
{"id": "C89", "title": "When a reply is booked", "statement": "A waiting reply is booked exactly when: an accepted un-delegation does not exceed the recorded stake, a withdrawal does not exceed the recorded unbonding amount, the fee does not exceed the rewards, and for a whitelisting the LS token exists and the deposit is worth at least one LS unit; all other replies are always booked. A refused reply only adds its EGLD to the balance.", "quantifier": "every deployment, every finite history of transactions (any callers, any amounts), every provider outcome and every order of delivery of asynchronous replies", "why_tests_cant": "both directions for all callbacks over all states", "anchors": ["liquid-staking/src/callback.rs"]}
{"id": "C90", "title": "A group of accounts cannot out-trade the others", "statement": "Whatever a set of colluding accounts does, over any history in which only they act, what they are sent plus the worth of the LS and unstake tokens they end up with is at most what they paid plus the worth (rounded up) of the tokens they began with, plus the rewards credited, the stake announced through migrate and the first stakes already under way. With no LS tokens in existence they can end up with the ownerless reserve, and nothing else.", "quantifier": "every deployment, every finite history of transactions (any callers, any amounts), every provider outcome and every order of delivery of asynchronous replies", "why_tests_cant": "all strategies of all coalitions of any length", "anchors": ["liquid-staking/src/lib.rs", "liquid-staking/src/liquidity_pool.rs", "liquid-staking/src/callback.rs", "liquid-staking/src/migrate.rs"]}
{"id": "C91", "title": "Trading does not move the price", "statement": "Over any history without rewards, what a deposit mints never rises, and falls by no more than the rounding: at most a/L units for every action and one unit in all, where L is the least the reserve ever was.", "quantifier": "every deployment, every finite history of transactions (any callers, any amounts), every provider outcome and every order of delivery of asynchronous replies", "why_tests_cant": "all lengths and orders of deposits, redemptions, batches and replies", "anchors": ["liquid-staking/src/liquidity_pool.rs", "liquid-staking/src/lib.rs"]}
{"id": "C92", "title": "The order of replies does not matter", "statement": "Two waiting replies of different providers, or of which one delivers rewards, may arrive in either order: each is booked or refused alike in both and the state reached is the same. Two replies of the same provider lead to the same state whenever both orders book both.", "quantifier": "every deployment, every finite history of transactions (any callers, any amounts), every provider outcome and every order of delivery of asynchronous replies", "why_tests_cant": "all pairs of waiting replies in all reachable states, both interleavings", "anchors": ["liquid-staking/src/callback.rs"]}
{"id": "C93", "title": "Every provider gets its turn", "statement": "A provider waiting in the queue for new stake (or for un-staking) never loses its place: until it is itself asked it moves up by exactly the number of providers asked that stood ahead of it, and nobody new is put ahead of it. No batch asks a provider while somebody ahead of it who could serve is left out of the candidates.", "quantifier": "every deployment, every finite history of transactions (any callers, any amounts), every provider outcome and every order of delivery of asynchronous replies", "why_tests_cant": "starvation over histories of any length", "anchors": ["liquid-staking/src/selection.rs: get_delegation_contract, select_delegation_providers, select_undelegation_providers", "liquid-staking/src/manage.rs: delegate_pending, un_delegate_pending", "liquid-staking/src/callback.rs: whitelist_delegation_contract_callback"]}
{"id": "C94", "title": "What aborted callbacks leave behind", "statement": "A callback that aborts leaves the EGLD of its reply in the contract and changes nothing else. At every moment the pending amounts on a provider's record exceed the calls really unanswered by exactly the amounts of the calls whose callback aborted, and the contract never takes them off the record again.", "quantifier": "every deployment, every finite history of transactions (any callers, any amounts), every provider outcome and every order of delivery of asynchronous replies, including callbacks that run out of gas", "why_tests_cant": "needs callbacks that abort, which the tests never have", "anchors": ["liquid-staking/src/callback.rs", "liquid-staking/src/constants/mod.rs", "liquid-staking/src/manage.rs: delegate_pending, un_delegate_pending"]}
{"id": "C95", "title": "What every provider is asked for", "statement": "The amount of every call of a delegation or un-delegation batch is the one given by a two-round rule on the provider records, the scores and the amount alone: first the proportional share (as far as it fits; for an un-delegation at least 1 EGLD and never leaving less than 1 EGLD behind), then the left-overs to the earliest that can take them; what finds no place stays in the queue.", "quantifier": "every deployment, every finite history of transactions (any callers, any amounts), every provider outcome and every order of delivery of asynchronous replies", "why_tests_cant": "all records, scores, caps, amounts and numbers of providers, with the behaviour at every boundary", "anchors": ["liquid-staking/src/selection.rs", "liquid-staking/src/score.rs", "liquid-staking/src/manage.rs: delegate_pending, un_delegate_pending"]}
{"id": "C96", "title": "Provider views can be trusted", "statement": "getDelegationContractStakedAmount and getDelegationContractUnstakedAmount answer for every listed provider; over all listed providers they add up to all stake on the books and to the unbonding pot; with no call unanswered the virtual reserve can be recomputed from them; and in orderly histories they equal what the provider really holds once its replies have arrived.", "quantifier": "every deployment, every finite history of transactions (any callers, any amounts), every provider outcome and every order of delivery of asynchronous replies", "why_tests_cant": "all histories; needs that no unlisted record ever holds anything and that replies settle the books", "anchors": ["liquid-staking/src/views.rs", "liquid-staking/src/callback.rs", "liquid-staking/src/delegation.rs: whitelist_delegation_contract"]}
{"id": "C97", "title": "Where EGLD can go", "statement": "EGLD leaves the contract only: to somebody handing in LS tokens, at most their worth and out of the pending EGLD; to somebody handing in unstake tokens, one for one up to what was withdrawn; back to the payer of a failed whitelisting or token issue; to the configured accumulator, exactly the fees; with an operator's delegation to a listed provider; with an operator's own payment to a provider being whitelisted; with the owner's own payment for a token issue. Over any history a group of accounts is sent at most what its members advanced for whitelistings and issues plus what the tokens they handed in were good for; in particular owner, managers, provider admins and migration contract are only ever sent their own payments unless they hand in tokens.", "quantifier": "for all states, actions, groups of accounts and histories", "why_tests_cant": "A test asserts the payments it expects; it cannot show that no other sequence of privileged and unprivileged calls diverts EGLD to somebody else.", "anchors": ["liquid-staking/src/lib.rs", "liquid-staking/src/manage.rs", "liquid-staking/src/callback.rs", "liquid-staking/src/delegation.rs", "liquid-staking/src/config.rs"]}
{"id": "C98", "title": "Where tokens come from", "statement": "No account's LS balance grows except by depositing EGLD, by the accepted first stake of a provider the account whitelisted, as migration contract by migrate, or by a transfer from another holder; in the first three cases by exactly the worth of the EGLD at the current price. No account's unstake tokens grow except by redeeming LS tokens, by exactly the part of their worth not paid at once, or by a transfer.", "quantifier": "for all states, actions and accounts", "why_tests_cant": "Tests check the receiver they expect; that no other account and no other endpoint ever mints is a statement about every action in every state.", "anchors": ["liquid-staking/src/lib.rs", "liquid-staking/src/callback.rs", "liquid-staking/src/migrate.rs", "liquid-staking/src/utils/un_delegation.rs: undelegate_amount"]}
{"id": "C99", "title": "From deployment to the first deposit", "statement": "A contract can be deployed exactly when both the number of selected providers and the number of listed providers are at least 1; it then starts paused, with the given configuration, and without managers, tokens, EGLD, records or calls. Until the LS token is issued nothing is booked, nobody has a token and no provider is listed, whatever happens. As long as neither token is issued or being issued the owner can issue both and activate the contract, and then anybody can make the first deposit of at least 1 EGLD, at one LS token per EGLD.", "quantifier": "every deployment, every finite history of transactions (any callers, any amounts), every provider outcome and every order of delivery of asynchronous replies", "why_tests_cant": "all deployment arguments and everything that can happen before the contract goes live", "anchors": ["liquid-staking/src/lib.rs: init, delegate", "liquid-staking/src/config.rs: register_ls_token, register_unstake_token, set_state_active"]}
{"id": "C100", "title": "Everything under way settles", "statement": "At any point of an orderly history with no first stake at a new provider under way and a fee of at most 100%, whatever the providers answer to the waiting calls, all replies can then be booked in order: nothing aborts and nothing is left under way. From there the way out is open: an operator collects what unbonds, one deposit covers the queue, and every matured unstake token is paid in full.", "quantifier": "every deployment, every finite history of transactions (any callers, any amounts), every provider outcome and every order of delivery of asynchronous replies", "why_tests_cant": "liveness from every state with any number of calls and replies under way, for all answers", "anchors": ["liquid-staking/src/callback.rs", "liquid-staking/src/manage.rs", "liquid-staking/src/lib.rs: withdraw"]}
{"id": "C101", "title": "Nothing else changes", "statement": "For every endpoint, every reply and every outside event there is a published list of the parts of the state it is for (pool amounts, balance, settings, lists, entries of the provider records, balances of accounts, token book, calls); every part not on the list of an action is exactly the same after it, in every state and whether it succeeds or not.", "quantifier": "all states, actions and parts", "why_tests_cant": "tests look at the values they expect to change; that nothing else changes is a statement about every storage entry, account and provider", "anchors": ["liquid-staking/src/lib.rs", "liquid-staking/src/manage.rs", "liquid-staking/src/callback.rs", "liquid-staking/src/delegation.rs", "liquid-staking/src/config.rs", "liquid-staking/src/migrate.rs"]}
{"id": "C102", "title": "The un-delegation queue drains", "statement": "At a quiet point of an orderly history with usable scoring settings and provider records of zero or at least 1 EGLD, an operator can bring the un-delegation queue below 2 EGLD by un-delegations alone, unless the providers run out of stake before: each batch is accepted, the providers can carry it out, every reply is booked, and nothing is left under way. No deposit is needed.", "quantifier": "every deployment, every finite history of transactions (any callers, any amounts), every provider outcome and every order of delivery of asynchronous replies", "why_tests_cant": "liveness: the existence of a successful course from every state of every orderly history, with a number of rounds that depends on the amounts", "anchors": ["liquid-staking/src/manage.rs: un_delegate_pending", "liquid-staking/src/selection.rs", "liquid-staking/src/score.rs", "liquid-staking/src/callback.rs: remove_liquidity_callback"]}
{"id": "C103", "title": "Rewards are shared in proportion", "statement": "When rewards arrive (claimed, less the fee, or added), nobody's tokens change and x LS tokens are worth x * reward / supply more, up to one unit of 10^-18. Who deposits a right before and redeems right after gets at most a / (reserve + a) of the reward, and the other holders keep the reserve and the rest of the reward, up to one unit.", "quantifier": "all reachable states, amounts and rewards", "why_tests_cant": "rounding of three divisions for all amounts", "anchors": ["liquid-staking/src/callback.rs: claim_rewards_callback", "liquid-staking/src/lib.rs: delegate, un_delegate", "liquid-staking/src/migrate.rs: add_rewards", "liquid-staking/src/liquidity_pool.rs"]}
{"id": "C104", "title": "What a waiting holder can count on", "statement": "The EGLD set aside for withdrawals leaves by withdrawals only. A holder of unstake tokens whose claim fits the pot beside what others withdraw in the meantime is paid in full, however late and whatever else happens, unless the contract is paused. Two withdrawals for which the pot suffices may change places without any difference.", "quantifier": "every deployment, every finite history of transactions (any callers, any amounts), every provider outcome and every order of delivery of asynchronous replies", "why_tests_cant": "all histories of other people's actions between two points", "anchors": ["liquid-staking/src/lib.rs: withdraw", "liquid-staking/src/callback.rs", "liquid-staking/src/liquidity_pool.rs"]}
{"id": "C105", "title": "Everybody can leave together", "statement": "From a quiet point of an orderly history, once the release epochs have come, an operator has collected and one deposit has covered the queue, every list of withdrawals in which nobody hands in more than held is carried out, each in full. Without a deposit the same holds after the queue has been drained, as long as the rest of the queue (less than 2 EGLD, unless the providers have no stake left) stays covered by tokens not handed in. With calls and replies under way, and no first stake at a new provider among them, everything can be settled first, whatever the providers answer, and then everybody can leave in the same way.", "quantifier": "every deployment, every finite history of transactions (any callers, any amounts), every provider outcome and every order of delivery of asynchronous replies", "why_tests_cant": "lists of withdrawals of any length by any users, from every state of every orderly history", "anchors": ["liquid-staking/src/lib.rs: withdraw", "liquid-staking/src/manage.rs: withdraw_pending", "liquid-staking/src/callback.rs: withdraw_tokens_callback"]}
{"id": "C106", "title": "Settings and records are what was last said", "statement": "After every history each setting (active, fee, accumulator, minimum rounds, listed and selected limits, unbonding period, migration contract, scoring) is the value of the last successful call that set it, made by whoever was the owner then (scoring: owner or manager then), or else the initial value; rounds per epoch never change. An account is a manager exactly if the last thing the owner said about it is that it is. The administrator, the parameters and the eligibility of a provider record are the last that an operator, for parameters also the administrator then, said; a rejected stake makes the provider ineligible and a refused first stake removes the record. Nothing else has an influence.", "quantifier": "every deployment, every finite history of transactions (any callers, any amounts), every provider outcome and every order of delivery of asynchronous replies", "why_tests_cant": "the last writer over histories of any length, with changing owners, managers and administrators", "anchors": ["liquid-staking/src/config.rs", "liquid-staking/src/delegation.rs", "liquid-staking/src/migrate.rs", "liquid-staking/src/callback.rs"]}
{"id": "C107", "title": "Stake goes only to providers that are vouched for", "statement": "Whenever stake is sent to a provider, the last thing said about it by somebody with a say is that it may be given stake. A provider that has rejected stake or was taken out gets nothing, whatever happens, until an operator or its administrator puts it back.", "quantifier": "every deployment, every finite history of transactions (any callers, any amounts), every provider outcome and every order of delivery of asynchronous replies", "why_tests_cant": "absence of a call over all histories of any length", "anchors": ["liquid-staking/src/selection.rs: get_delegation_contract", "liquid-staking/src/callback.rs: add_liquidity_callback", "liquid-staking/src/delegation.rs: change_delegation_contract_params"]}
{"id": "C108", "title": "The events tell everything about the pool", "statement": "Who knows the seven amounts of the pool at one point and from then on sees the liquidity events and the fee deposits knows them after every history: nothing changes silently.", "quantifier": "every deployment, every finite history of transactions (any callers, any amounts), every provider outcome and every order of delivery of asynchronous replies", "why_tests_cant": "a statement about every action in every history", "anchors": ["liquid-staking/src/events.rs", "liquid-staking/src/manage.rs: claim_fees", "liquid-staking/src/lib.rs", "liquid-staking/src/callback.rs"]}
{"id": "C109", "title": "All accounts are treated alike", "statement": "The contract does the same whatever the accounts are called: with all accounts renamed throughout (the contract, the zero address and the delegation manager keep their names, smart contracts stay smart contracts), every action and every history has the same outcome with the accounts renamed, and reachable states go to reachable states. Any two accounts of the same kind can change places; two newcomers can do exactly the same in the same state. Nobody has a power or a handicap that is not in the state.", "quantifier": "for all renamings, states, actions and histories", "why_tests_cant": "a test fixes the addresses it uses; a back door or a block for one address would go unnoticed", "anchors": ["liquid-staking/src/lib.rs", "liquid-staking/src/manage.rs", "liquid-staking/src/callback.rs", "liquid-staking/src/delegation.rs", "liquid-staking/src/config.rs", "liquid-staking/src/migrate.rs"]}
{"id": "C110", "title": "What is stored is read back", "statement": "A provider record, the attributes of a receipt, the scoring configuration, numbers, addresses and the state, encoded as the framework does, are decoded as they were written. A stored record or configuration is never empty, so it is not mistaken for a missing one; decoding nothing or a record or receipt followed by anything aborts. A number is read as a narrower integer only if it fits.", "quantifier": "all values that fit their types", "why_tests_cant": "the values and widths in a test are a handful; a field read in another order or width goes unnoticed as long as the values agree", "anchors": ["liquid-staking/src/structs.rs", "liquid-staking/src/storage/mod.rs"]}
{"id": "C111", "title": "Storage entries never overlap", "statement": "No two entries of the contract's storage (single values, records by address, nonces by epoch, nodes and slots of the lists) share a key: a write changes the entry it is meant for and no other. None has a key that the protocol reserves or that the framework uses for calls under way.", "quantifier": "all entries with addresses, epochs and node numbers that fit their types", "why_tests_cant": "all addresses and epochs; keys share prefixes", "anchors": ["liquid-staking/src/storage/mod.rs", "liquid-staking/src/migrate.rs"]}
{"id": "C112", "title": "The lists in storage are the lists of the model", "statement": "The provider lists, kept in storage as linked nodes with a node number per value, and the managers, kept as a vector with the position of each: after any insertions and removals (fewer than 2^32 insertions) no call aborts, iterating gives exactly the list of the model in its order, length and membership agree, and nothing outside the list's own keys has changed. Nothing is left behind: bytes under the list's keys belong to a value that is in the list. Each list is kept under its own storage entries: changing it leaves every other entry of the storage as it was, and its entries are empty exactly if the list (or the value) is absent. In a list is exactly who was last inserted and not removed since, once.", "quantifier": "all sequences of calls", "why_tests_cant": "all orders of insertion and removal, with the relinking of neighbours at the front, at the back, in the middle", "anchors": ["liquid-staking/src/storage/mod.rs", "liquid-staking/src/utils/generic.rs", "liquid-staking/src/config.rs"]}
{"id": "C113", "title": "The storage keeps up with the model", "statement": "In every history from deployment on in which the inputs are small (addresses of 32 bytes, numbers of fewer than 2^32 bytes as arguments, less than 2^256 EGLD coming in altogether, fewer than 2^32 managers named, fewer than 2^64 actions, fewer than 2^32 insertions into the provider lists), or in which every stored value fits its type, the bytes in the contract's storage say at every point what the state of the model says: every setting, amount, record and nonce, missing ones included, and the three lists in their order. From each point to the next, and from an empty storage to the first, calls of the storage mappers lead, and none of them aborts.", "quantifier": "every deployment, every finite history of transactions (any callers, any amounts), every provider outcome and every order of delivery of asynchronous replies", "why_tests_cant": "a refinement between the bytes in storage and the state over all histories", "anchors": ["liquid-staking/src/storage/mod.rs", "liquid-staking/src/structs.rs", "liquid-staking/src/contexts/base.rs", "liquid-staking/src/utils/generic.rs"]}
{"id": "C114", "title": "Calls are understood as they are meant", "statement": "A call, given as the name of a function and a list of byte strings, does exactly what the interface declares: the name of an endpoint with arguments in the formats of its parameters, neither more nor fewer, is that endpoint with those parameters; no call means two things; every parameter that fits its type can be expressed and no other; anything else changes nothing, in particular direct calls of init, upgrade, the callbacks and the views. Deployment likewise. A history of calls given as bytes is a history of the model, and the storage keeps up with it without any hypothesis about the size of the arguments.", "quantifier": "all function names, argument lists and histories", "why_tests_cant": "tests call through typed proxies, which cannot send a malformed, missing or surplus argument", "anchors": ["liquid-staking/wasm/src/lib.rs", "liquid-staking/src/lib.rs", "liquid-staking/src/config.rs", "liquid-staking/src/manage.rs", "liquid-staking/src/migrate.rs", "liquid-staking/src/delegation.rs"]}
{"id": "C115", "title": "The views say what is the case", "statement": "In every history of calls given as bytes, and at every point of it, each view (the two token identifiers apart) answers, from the bytes in storage, with the encoding of what the model says: every setting and amount, the lists in their order, records and nonces (missing ones included), and the computed values. No other name is answered, a view with surplus, missing or malformed arguments is not answered, and no view is an endpoint.", "quantifier": "every deployment, every finite history of transactions (any callers, any amounts), every provider outcome and every order of delivery of asynchronous replies; all queries", "why_tests_cant": "each view would have to be asked in every state", "anchors": ["liquid-staking/src/views.rs", "liquid-staking/src/storage/mod.rs", "liquid-staking/src/migrate.rs", "liquid-staking/wasm/src/lib.rs"]}
{"id": "C116", "title": "Events can be read", "statement": "Every event of the contract and nothing else is written as topics; whoever reads them learns its kind, the amount, the provider of a withdrawal, who caused it, the token, the seven amounts of the pool, block, epoch and time; different events have different topics. An observer who reads nothing but the topics (and sees the deposits of fees) knows the pool after every history.", "quantifier": "every deployment, every finite history of transactions (any callers, any amounts), every provider outcome and every order of delivery of asynchronous replies; all events whose values fit the format", "why_tests_cant": "no test looks at the bytes of an event", "anchors": ["liquid-staking/src/events.rs"]}
{"id": "C117", "title": "The contract among the repository's mocks", "statement": "Put together with the provider and manager mocks of the repository, the contract's history is always a history of the model, with the same state after every step and the same outcome of every action: whatever holds for all histories of the model holds there. The stake and unbonding amount the model keeps for a provider are at every moment those in the mock's storage. Every call that is out can be executed at its mock and its reply is then waiting.", "quantifier": "all histories of the contract with any number of mocks", "why_tests_cant": "the integration tests run a few such histories", "anchors": ["delegation-mock/src/delegation.rs", "delegation-manager-mock/src/delegation_manager.rs", "liquid-staking/src/manage.rs", "liquid-staking/src/callback.rs"]}
{"id": "C118", "title": "What the mocks answer", "statement": "A delegation is accepted exactly if there is a mock, an un-delegation exactly if it is positive and within the stake, a withdrawal exactly if something is un-delegated, its period is over and the mock has the EGLD; a withdrawal pays all that was un-delegated; a claim is paid by the mocks and touches no stake. If each provider executes its calls in the order sent and replies come in order, no delegation and no un-delegation of the contract is ever refused; executed in another order some can be.", "quantifier": "all histories of the contract with any number of mocks", "why_tests_cant": "all interleavings of batches, executions and replies at several providers", "anchors": ["delegation-mock/src/delegation.rs", "delegation-manager-mock/src/delegation_manager.rs", "liquid-staking/src/manage.rs", "liquid-staking/src/selection.rs"]}
{"id": "C119", "title": "EGLD in the network", "statement": "With the contract, the mocks and the manager mock together EGLD is neither made nor lost. A mock holds what it was given and keeps for the contract, less the rewards it paid. If it was given at least the rewards it paid it can pay out the whole stake; if not it can be unable to pay what was un-delegated, although every step before succeeded.", "quantifier": "all histories of the contract with any number of mocks", "why_tests_cant": "sums over all parties and all histories", "anchors": ["delegation-mock/src/delegation.rs", "delegation-manager-mock/src/delegation_manager.rs", "liquid-staking/src/callback.rs"]}
{"id": "C120", "title": "Everybody can leave, with the mocks answering", "statement": "From any point of an orderly history with the mocks, no first stake being under way: executing the waiting calls at the mocks and delivering the replies goes through and leaves nothing under way. Then, if each mock has the EGLD that was un-delegated: after the release epochs an operator collects from every mock that owes something, one deposit covers the queue, and every list of withdrawals within the tokens held is carried out in full.", "quantifier": "all histories of the contract with any number of mocks", "why_tests_cant": "liveness from all states of all histories, the answers being computed by the mocks", "anchors": ["delegation-mock/src/delegation.rs", "delegation-manager-mock/src/delegation_manager.rs", "liquid-staking/src/manage.rs", "liquid-staking/src/lib.rs: withdraw", "liquid-staking/src/callback.rs"]}
{"id": "C121", "title": "The contract's own unstake tokens", "statement": "The contract itself holds exactly one unit of every unstake token in its table of unbonding epochs and none of any other, apart from units that somebody transferred to it. A nonce is in the table exactly if it is the last one or the next one was created in the same epoch, under its unbonding epoch only; an entry that outlives the next nonce stays for good and one that was removed does not come back.", "quantifier": "every deployment, every finite history of transactions (any callers, any amounts), every provider outcome and every order of delivery of asynchronous replies", "why_tests_cant": "all histories of redemptions, epochs and changes of the unbonding period", "anchors": ["liquid-staking/src/liquidity_pool.rs: mint_unstake_tokens, clean_old_unbond_epochs", "liquid-staking/src/lib.rs: un_delegate"]}
{"id": "C122", "title": "Outgoing calls and their promises as bytes", "statement": "Every call the contract has under way can be written as a message, and no two calls make the same message. A mock that reads the message does what the call means, with the EGLD attached to it; the callback that is entered from the name and the closure in the message and from the result as the platform reports it does what it should with the provider, amount and manager it was sent for. Hence the contract and its mocks, exchanging bytes, take the same course as in the model, whatever code is reported for failures.", "quantifier": "every deployment, every finite history of transactions (any callers, any amounts), every provider outcome and every order of delivery of asynchronous replies; all calls, results and replies", "why_tests_cant": "a wrong function name, a swapped or missing argument of a closure shows only in the bytes, which tests through typed proxies do not see", "anchors": ["liquid-staking/src/manage.rs", "liquid-staking/src/delegation.rs", "liquid-staking/src/callback.rs", "liquid-staking/src/proxy/proxy_delegation.rs", "liquid-staking/src/proxy/proxy_delegation_manager.rs", "delegation-mock/src/delegation.rs", "delegation-manager-mock/src/delegation_manager.rs"]}
{"id": "C123", "title": "The generated client of the contract", "statement": "Every method of the generated client (liquid-staking/src/proxy/proxy_liquid_staking.rs) does what the endpoint it is meant for does with these parameters, payments can go along exactly where they are accepted, and every question asked through it is answered with the truth. As stated this is false: delegate_rewards and rewards_reserve name functions that the contract does not have, the record of a provider has two fields more than the client's type so that its answer can never be read, and claimFees is out of reach. Everything else holds, for all parameters that fit their types.", "quantifier": "every deployment, every finite history of transactions (any callers, any amounts), every provider outcome and every order of delivery of asynchronous replies; all methods, parameters, callers and payments; all questions", "why_tests_cant": "tests use the few methods they need, and the client is generated code that nobody reads", "anchors": ["liquid-staking/src/proxy/proxy_liquid_staking.rs", "liquid-staking/src/structs.rs", "liquid-staking/src/storage/mod.rs", "liquid-staking/wasm/src/lib.rs"]}
{"id": "C124", "title": "The operators' script", "statement": "Every command of the operators' script (liquid-staking/interaction/devnet.snippets.sh) asks the contract for what it is meant to do, and every question of it is answered. As stated this is false: setManagers, addMigrationScAddress, updateMaxDelegationAddresses and updateMaxSelectedProviders name functions that the contract does not have, three questions name views that it does not have, and whitelistDelegationContract sends no EGLD, so it is refused in every state. The deployment and all other commands do exactly what is meant, for all settings that fit their types; the script suffices to take deposits, but in no history of its commands does the contract ever get a provider or stake anything.", "quantifier": "all settings that fit their types, states, callers, and all histories whose transactions are commands of the script", "why_tests_cant": "the script is not run by any test, and it names functions as text", "anchors": ["liquid-staking/interaction/devnet.snippets.sh", "liquid-staking/wasm/src/lib.rs", "liquid-staking/src/config.rs", "liquid-staking/src/delegation.rs", "liquid-staking/src/lib.rs"]}
{"id": "C125", "title": "Which settings matter to whom", "statement": "Each setting of the contract (state, fees, accumulator, rounds per epoch, minimum of rounds, the two maxima, unbonding period, score settings, migration contract, managers), the owner, and the stakes the providers really hold, make a difference only to the actions of an explicit list: every other action, in every state, gives the same answer and the same state but for the setting itself, and so do whole histories. A setter forgets the old value. The list is exact: every endpoint in it is changed by the setting in some reachable state. Two settings are dead: the rounds per epoch and the minimum of rounds change nothing in any history, so the limit that setMinimumRounds sets limits nothing. And the contract is blind to what the providers really hold for it.", "quantifier": "all states, settings, values, actions and histories", "why_tests_cant": "a non-interference claim compares two executions for all values of a setting; tests run one execution with one value", "anchors": ["liquid-staking/src/storage/mod.rs", "liquid-staking/src/config.rs", "liquid-staking/src/lib.rs", "liquid-staking/src/manage.rs", "liquid-staking/src/callback.rs", "liquid-staking/src/delegation.rs", "liquid-staking/src/migrate.rs", "liquid-staking/src/selection.rs"]}
{"id": "C126", "title": "Who can hold up delegation", "statement": "When a delegatePending works, the admin of one provider can make it fail by changing that provider's parameters if and only if the batch gets as far as that provider in the list and one of these holds: the provider's net stake is at least 2 units, its books show more being unstaked than staked, the other providers cannot take the batch without it, or a range of the scoring configuration is empty. The first provider of the list can always block everybody's delegation with a cap of 1, and it stays blocked through every history that leaves this provider's parameters and books alone. A transaction of anybody who is neither owner, manager nor admin of a provider makes no difference, and unDelegatePending cannot be held up by parameters at all unless a range of the scoring configuration is empty.", "quantifier": "all reachable states, batches, providers, parameter choices, later histories and outsiders", "why_tests_cant": "an exact boundary of power over all parameter choices, and permanence over all later histories", "anchors": ["liquid-staking/src/selection.rs:67-95", "liquid-staking/src/selection.rs:179-195", "liquid-staking/src/selection.rs:393-411", "liquid-staking/src/manage.rs", "liquid-staking/src/delegation.rs"]}
{"id": "C127", "title": "To its holders the contract is a plain vault", "statement": "After every history, the supply, the virtual reserve and everybody's LS tokens are exactly what a plain vault with shares (in proportion, rounded down, one for one when empty) holds after the deposits, redemptions, gains and transfers of LS tokens that succeeded, in that order. So the price and what everybody holds depend on nothing else: two contracts with whatever settings, providers, replies, batches and epochs agree in all of it if the same was booked in the same order. Conversely every sensible sequence of such bookings (deposits and redemptions of at least 1 EGLD) comes about in some failure-free history.", "quantifier": "all histories, all pairs of histories of two contracts, all sequences of bookings", "why_tests_cant": "a refinement between two programs, compared over all histories, and a comparison of pairs of histories", "anchors": ["liquid-staking/src/lib.rs: delegate, un_delegate, add_rewards", "liquid-staking/src/liquidity_pool.rs", "liquid-staking/src/callback.rs", "liquid-staking/src/migrate.rs"]}
{"id": "C128", "title": "What a share earns", "statement": "As long as LS tokens exist, the exact price of one after any history is the price before plus every gain divided by the LS supply at the time it came; rounding only adds to it, and no more than the price of one unit of a share per deposit and one unit of EGLD per redemption, divided among all shares. That is negligible: with never fewer than S units in existence, at most one part in S of the price per trade. So whoever just holds x units while the others do what they like earns x times the gains per share, up to one unit of EGLD and that dust.", "quantifier": "all reachable states, all histories during which the supply stays positive, all holders", "why_tests_cant": "a two-sided bound on a sum of exact fractions over histories of any length", "anchors": ["liquid-staking/src/liquidity_pool.rs", "liquid-staking/src/lib.rs: delegate, un_delegate", "liquid-staking/src/callback.rs: claim_rewards_callback, whitelist_delegation_contract_callback", "liquid-staking/src/migrate.rs"]}
{"id": "C129", "title": "Only staked EGLD earns", "statement": "EGLD that was never staked earns nothing: whoever deposits and redeems within one epoch, before anything is sent to a provider, gets at most the deposit back. (False: whoever deposits while the reply to claimRewards is under way takes part in those rewards and can leave at once. True is: a deposit redeemed after any history brings the deposit and its part, share by share, of the gains booked in between, up to rounding.)", "quantifier": "all reachable states, depositors, amounts, histories between the deposit and the redemption", "why_tests_cant": "the gap is between two blocks: the reward is earned but not yet in the price; tests answer every call at once", "anchors": ["liquid-staking/src/lib.rs: delegate, un_delegate", "liquid-staking/src/manage.rs: claim_rewards", "liquid-staking/src/callback.rs: claim_rewards_callback", "liquid-staking/src/liquidity_pool.rs"]}
{"id": "C130", "title": "It hardly matters who comes first", "statement": "However many trades others make before a deposit or a redemption, without gains in between: the depositor gets no more LS tokens than without them and less only by one part in S/t and one unit, the redeemer no less EGLD and more only by one part in S/t and one unit, where t is the number of their trades and S the least number of units in existence. So going ahead of somebody gains nothing and takes nothing.", "quantifier": "all reachable states, all histories of other people's actions without gains, all traders and amounts", "why_tests_cant": "two runs of unbounded length are compared", "anchors": ["liquid-staking/src/lib.rs: delegate, un_delegate", "liquid-staking/src/liquidity_pool.rs"]}
{"id": "C131", "title": "Together or one after the other", "statement": "A withdrawal with several unstake tokens is accepted exactly when each of its payments, withdrawn alone and in the same order, would be; it then pays the same EGLD in total and leaves every part of the state the same. Likewise rewards added at once or in two parts, and managers named at once or in two parts.", "quantifier": "all reachable states, all callers, all lists of payments, all amounts, all lists of managers", "why_tests_cant": "one call is compared with a sequence of calls of any length", "anchors": ["liquid-staking/src/lib.rs: withdraw, add_rewards", "liquid-staking/src/config.rs: add_managers"]}
{"id": "C132", "title": "When a withdrawal is made does not matter", "statement": "A withdrawal that the pot covers may as well be made later. Whatever happens meanwhile (deposits, redemptions, batches, replies, rewards, settings, failures, other withdrawals the pot covers), every action ends with the same status and pays everybody the same EGLD whether or not the withdrawal was made before; made afterwards, with the contract active, it is accepted, pays the same and leaves every part of the state the same.", "quantifier": "all reachable states, all users, all lists of payments, all histories in which the user parts with no unstake tokens and the pot covers every withdrawal", "why_tests_cant": "two runs of unbounded length are compared, over all kinds of actions", "anchors": ["liquid-staking/src/lib.rs: withdraw", "liquid-staking/src/callback.rs", "liquid-staking/src/manage.rs"]}
{"id": "C133", "title": "When and how often fees are claimed does not matter", "statement": "Leave the claims of the fees out of any history: every other action ends with the same status and pays everybody the same EGLD, and at the end every part of the state is the same, except that exactly the fees that had been handed over are still in the fee reserve and in the balance.", "quantifier": "all reachable states, all histories, with any number of claims by anybody, accepted or refused, with an accumulator that accepts or fails but does not call back", "why_tests_cant": "two runs of unbounded length are compared, over all kinds of actions", "anchors": ["liquid-staking/src/manage.rs: claim_fees", "liquid-staking/src/callback.rs: claim_rewards_callback"]}
{"id": "C134", "title": "Withdrawals concern nobody else", "statement": "Leave the withdrawals out of any history in which nobody spends unstake tokens otherwise than by withdrawing them or transferring what they have, and no EGLD comes with a withdrawal. Every other action ends with the same status; everybody receives the same EGLD but for what the withdrawals paid them; and at the end every part of the state is the same, except that what was paid is still in the pot and in the balance and the tokens given up for it are still with their holders.", "quantifier": "all reachable states, all such histories, with any number of withdrawals by anybody, paid in full, in part or refused", "why_tests_cant": "two runs of unbounded length are compared, over all kinds of actions", "anchors": ["liquid-staking/src/lib.rs: withdraw", "liquid-staking/src/callback.rs: withdraw_tokens_callback", "liquid-staking/src/utils/delegate.rs: decrease_pending_egld"]}
{"id": "C135", "title": "What matters of a history", "statement": "Take any history in which nobody spends unstake tokens otherwise than by withdrawing them or transferring what they have, and no EGLD comes with a withdrawal. Leave out the withdrawals, the claims of the fees and whatever was refused: what is left ends as it did amid the others, everybody receives the same EGLD but for what the withdrawals paid them, and every part of the state is the same at the end, except that the EGLD withdrawn is still in the pot, the tokens given up for it are still with their holders, the fees are unclaimed, and the balance is larger by what was withdrawn and claimed.", "quantifier": "all reachable states, all such histories", "why_tests_cant": "two runs of unbounded length are compared, over all kinds of actions", "anchors": ["liquid-staking/src/lib.rs: withdraw", "liquid-staking/src/manage.rs: claim_fees", "liquid-staking/src/callback.rs"]}
