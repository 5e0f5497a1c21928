# Formal model of the XOXNO liquid staking contract

"LS/" abbreviates `/repo/liquid-staking/src/`.

## 1. What is modelled

The model is total, computable Gallina over `N`. Every abort of the Rust code
(`require!`, `sc_panic!`, BigUint underflow, division by zero, failed decoding,
missing funds) is an explicit error value `Er e`; nothing is silently truncated.

| File | Models |
| --- | --- |
| `Base.v` | result type, checked arithmetic, constants, error list (`constants`, `errors`) |
| `Types.v` | storage records (`structs.rs`, `storage/mod.rs`), asynchronous calls, effects, world |
| `Score.v` | `score.rs` |
| `Selection.v` | `selection.rs` |
| `Chain.v` | ledgers, transfers, promises, token operations, access control, `SetMapper`, `StorageCache` (`contexts/base.rs`) |
| `Pool.v` | `liquidity_pool.rs` |
| `Utils.v` | `utils/generic.rs`, `utils/delegate.rs`, `utils/un_delegation.rs` |
| `Lib.v` | `lib.rs` (init, delegate, unDelegate, withdraw) |
| `Manage.v` | `manage.rs` |
| `Callback.v` | `callback.rs` and the framework's issue callback |
| `Admin.v` | `delegation.rs`, `config.rs`, `migrate.rs`, `views.rs` |
| `World.v` | transactions, payability, asynchronous execution, histories, deployment |
| `Mock.v` | `delegation-mock`, `delegation-manager-mock` |
| `Mnet.v` | the contract together with the mocks: a call is executed by the mock at its address; `depositEGLD`, claims by others and new mocks at any time. Nobody else delegates, un-delegates or withdraws at a mock (it keeps one deposit for all callers); the owner check of `depositEGLD` is left out; the issue of a token ends either way |
| `Codec.v` | the derived encodings of `structs.rs` and of the values in `storage/mod.rs`, as bytes |
| `Storage.v` | the keys of `storage/mod.rs` and `migrate.rs`, the nodes and slots of the framework's `SetMapper` and `UnorderedSetMapper`, as bytes in a key-value store |
| `Abi.v` | the functions exported by `wasm/src/lib.rs` with the parameters declared at each endpoint: call data as bytes, decoding of arguments; the answers of the views, computed from the stored bytes; the topics of `events.rs` as bytes |
| `Wire.v` | the outgoing calls of `manage.rs` and `delegation.rs` as the generated proxies write them: destination, EGLD, function, arguments, callback and closure as bytes; the functions of the mocks by name; the promise callbacks of `callback.rs` reading closure and result. The issue of tokens is not written as bytes; gas limits are left out |
| `Proxy.v` | the generated client `proxy/proxy_liquid_staking.rs`: which function each method calls, with which bytes and whether with a payment; the arguments at deployment; how the answers of the views are read (its own `ScoringConfig`, `State` and `DelegationContractInfo`) |
| `Script.v` | the operators' script `interaction/devnet.snippets.sh`: the call, payment and bytes of each command with any values of its variables; its questions; the arguments at deployment |

State: `world` = contract storage + the chain state the contract talks to (EGLD
balance of the contract, LS and unstake token ledgers of all accounts, token
attributes, epoch, owner, outstanding calls, answered calls waiting for their
callback, real stake at each provider, log of the last action).
Actions (`op`): any transaction by anybody to any of the 28 endpoints with any
arguments and payments; execution of any outstanding call at its destination with
any admissible outcome; delivery of any waiting callback in any order; a callback
that aborts for reasons outside the modelled code (`OAbort`: gas, refused transfer);
epoch changes; token transfers between users; donations to the contract; change of
owner; any change of the stake a provider really holds.
`step : world -> op -> world * status`; `run` folds it; `Reachable` is the
least set containing every deployment and closed under `step`.

### Not modelled
Gas (transactions that run out of it have no effect, callbacks that do are the
action `OAbort`, whatever the amount reserved for them); token identifiers, names, uris; block nonce and timestamp (parameters of the events' bytes in C116); the views `getLsTokenId` and `getUnstakeTokenId`; EGLD
balances of users; upgrade (empty function) and new code; the generated proxies but for
the calls in `Wire.v` and `Proxy.v` (there without `upgrade` and the two token identifiers);
`meta`, test code; of `interaction` the gateway, the ledger, gas limits and the commands `upgrade`, `verifyContract` and `buildDocker`;
the internals of the accumulator and of the system contracts.

### Assumptions about the platform (trusted)
* BigUint subtraction aborts below zero; division by zero aborts; an aborted
  transaction has no effect; an aborted promise callback has no effect on storage
  while the EGLD sent with the reply stays in the contract.
* `get_token_id()` aborts when the token is not issued; decoding an empty
  `DelegationContractData` / address aborts.
* `mxpy` writes a decimal number as its minimal bytes (zero as one zero byte), an address as its
  32 bytes, `str:` as the text and `0x` as the bytes; `ESDTTransfer` runs the named function with
  the payment.
* Byte formats and mappers of the framework (0.54): big-endian integers, lengths of four
  bytes, no leading zeros and nothing for zero at top level; `SetMapper` is a queue of
  linked nodes with a node number per value, `UnorderedSetMapper` a vector with a position
  per value, under the key suffixes in `Storage.v`; an empty queue is stored as nothing.
  That they behave like the lists of `Chain.v` (insertion order; `insert` appends when
  absent; `swap_remove` puts the last in the gap) is proved in C112.
* A call names a function and carries a list of byte strings. Only exported functions can be
  called; init and upgrade only by the platform at deployment and upgrade. A promise
  callback called directly finds no closure and aborts; `callBack` likewise. An integer
  argument is accepted whatever its leading zeros as long as its value fits the type (a
  stricter platform only refuses more).
* The closure of a promise is the list of its arguments, each with its length in four
  bytes; the callback is entered by its name with the closure, and with a return code,
  0 for success followed by the values returned, or another one with at most a message.
  A success of `delegate`, `unDelegate` and `withdraw` returns no values, `claimMulti`
  one number.
* Token attributes are readable, quantity can be added, only while the contract
  holds some of that nonce. Only the contract mints or burns its two tokens.
* EGLD/ESDT `.transfer()` runs no code at the receiver. A receiver that refuses
  within the same shard aborts the transaction (no effect); one in another shard
  sends the amount back later, which is the action `ODonate` (EGLD) or `OMoveLs` /
  `OMoveUst` to the contract. A callback aborts when a receiver refuses or its gas
  does not suffice (`OAbort`); `along orderly` excludes it where a theorem needs to.
* EGLD of a failed asynchronous call comes back with the callback.
* The delegation manager sends exactly the rewards it reports. While it executes a
  call a provider lets no more be un-delegated than is active there, nor more be
  withdrawn than was un-delegated. Between calls its stake may change in any way
  (action `OProvider`: slashing, faults); theorems that need providers which leave
  the stake alone say so by the hypothesis `along orderly`. Providers may reject any
  call at any time.
* u64 additions wrap (`overflow-checks = false`), `usize` is 32 bits, `as u32`
  truncates. Epochs stay below 2^64.
* A transaction carries EGLD or ESDT payments, not both.
* `ManagedDecimal` division of two 18-decimals values truncated is the integer quotient.
* The accumulator does not call back during `claimFees` (C46 shows what happens
  otherwise, using `claim_fees_with`).

## 2. Statement and proof files

* `Spec.v` — the small vocabulary of the statements (sums over ledgers, rates,
  clean histories, ordered delivery), independent of the code's helpers.
* `Spec2.v` — vocabulary of C63 onwards: what each setter stores, which payments fit,
  scores, candidates and shares computed from the records alone.
* `Spec3.v` — vocabulary of C71 onwards: totals over whole histories, books of a provider.
* `Spec4.v` — vocabulary of C85 onwards: exact conditions for acceptance.
* `Spec5.v` — vocabulary of C90 onwards: what groups of accounts hold, pay and receive; replies of providers.
* `Spec6.v` — vocabulary of C95 and C56: the two rounds in which a batch is split; histories that keep a cap.
* `Spec7.v` — vocabulary of C97 and C98: the ways by which EGLD leaves and by which tokens appear.
* `Spec8.v` — vocabulary of C99: the owner's way from deployment to the first deposit.
* `Spec9.v` — vocabulary of C100 and C101: answering and booking everything under way; the parts of the state and the table of what each action may change.
* `Spec10.v` — vocabulary of C102–C105: the actions that empty the queue, what brings rewards, payments of withdrawals and lists of withdrawals.
* `Spec11.v` — vocabulary of C106–C108: what each action says about settings and records and the last word of a history, an observer of the events.
* `Spec12.v` — vocabulary of C109: renamings of accounts, the world and the action with the accounts renamed, newcomers.
* `Spec13.v` — vocabulary of C110–C113: values as wide as their types, calls of the storage mappers, what the contract reads from its storage, arguments that fit their types.
* `Spec14.v` — vocabulary of C114–C116: what a call means (names and formats of the interface, written down apart from the decoder), histories of calls given as bytes, the reader of an event's topics.
* `Spec15.v` — vocabulary of C117–C120: starts and histories of the network, what a mock keeps, calls executed in the order sent, EGLD of all parties, rewards paid by a mock, settling and collecting with the mocks' answers.
* `Spec16.v` — vocabulary of C121: entries of the table of nonces, units sent to the contract.
* `Spec17.v` — vocabulary of C122: calls that can be written as messages, results as they
  may be reported.
* `Spec18.v` — vocabulary of C123: what each method of the client is meant to ask for, what each
  question is about.
* `Spec19.v` — vocabulary of C124: what each command of the script is meant to ask for, settings
  that fit, histories of commands.
* `Spec20.v` — vocabulary of C125: replacing one setting by another value, and the list of the
  actions that look at it or write it.
* `Spec21.v` — vocabulary of C126: how far along the list a batch gets, whether the other
  providers suffice, actions that leave a provider alone.
* `Spec22.v` — vocabulary of C127: a vault with shares, what it books, what an action means to it.
* `Spec23.v` — vocabulary of C128: the exact price, gains per share, dust, number of trades.
* `Spec24.v` — vocabulary of C132: actions that take no unstake tokens from an account, withdrawals the pot covers.
* `Spec25.v` — vocabulary of C133: histories without the claims of the fees, and how the other actions end.
* `Spec26.v` — vocabulary of C134: histories without the withdrawals, how the other actions end, what withdrawals pay and take.
* `Spec27.v` — vocabulary of C135: what matters of a history, and how it ends.
* `L_*.v` — lemmas and invariants.
* `Scenario.v` — concrete histories used by the non-vacuity examples and the
  counterexamples.
* `TestKit.v`, `Conformance.v` — fidelity check of the model: the 44 active tests of
  `liquid-staking/tests` (same calls, balances, storage values and error codes)
  replayed on the model running against the mocks. They are tests, not properties.
* `P_*.v` — the property theorems only; each is closed by `exact`, followed by
  `Print Assumptions` and, where it has hypotheses, an `Example` meeting them.

A property that is false of the faithful model has a theorem `..._refuted` with a
concrete reachable witness and a `..._partial` theorem with the extra hypothesis
under which it holds.

## 3. Plan per property

| Property | Model | Proof |
| --- | --- | --- |
| C01 | all of `step` | invariant `egld >= pend + withdrawn + fees`, induction on histories |
| C02 | all of `step` | same invariant + LS/unstake holdings; no `EFunds` status |
| C03 | all of `step` | invariant Σ balances = supply |
| C04 | all of `step` | invariant on Σ user unstake tokens; replies lost to aborted callbacks as an explicit term |
| C05 | all of `step` | step-wise change of the gap; contributions only from migration endpoints |
| C06 | calls, results, records | invariant per provider (≥ always, = in clean histories) |
| C07, C08, C14 | pool | invariants, cross-multiplied |
| C09, C10, C11, C13 | pool functions | arithmetic, induction on sequences |
| C12 | views vs endpoints | symbolic execution |
| C15 | `get_action_amount` | case analysis; independent maximality spec |
| C16, C17, C18, C20 | endpoints | symbolic execution; exact post-state |
| C19, C22 | unstake tokens | invariant on nonce map, attributes, holdings |
| C21 | C04 + withdraw | corollary |
| C23 | ledgers | step-wise comparison of balances |
| C24, C25, C35, C36 | selection | induction over the loops |
| C26, C27, C28, C31 | callbacks | exact post-state |
| C29, C30 | async | replay invariant: recorded + undelivered results = real stake |
| C32, C33 | whitelisting | invariant on lists, records and calls |
| C34 | score | monotonicity of each category |
| C37–C41 | access control | symbolic execution for every endpoint |
| C42, C43 | configuration | invariants |
| C44 | log | every event in the log carries the final pool |
| C45 | claimFees | exact post-state |
| C46 | `claim_fees_with` | refuted by a nested delegate; partial: harmless if the nested calls leave the pool alone |
| C47–C60 | all | counterexample history (`_refuted`) plus `_partial` theorem |
| C61, C62 | mocks | refinement to the provider interface of `exec_call`; induction on the list |
| C63–C68 | remaining endpoints | exact post-state from `did`; availability by symbolic execution |
| C69, C70 | selection and score | loops shown equal to a closed description (filter, prefix, proportional share) |
| C71–C74 | whole histories | telescoping of the one-step equations; C74 from C07 |
| C75 | provider records | one case per rule of `did` |
| C76 | all of `step` | simulation: every function commutes with adding EGLD; no `EFunds` on either side (C02) |
| C77 | collect, deposit, withdraw | composition of availability lemmas with the settled books of orderly histories (C29) |
| C78–C82 | withdraw, selection, configuration | counterexample history (`_refuted`) plus `_partial` theorem |
| C49, C56, C59, C60, C81, C82 (`P_Exact.v`) | pool, selection, records | exact conditions of the failures from C95 and the pool invariants; C56 and C60 by induction on histories |
| C57, C58, C80 (`P_Exact2.v`) | whitelisting replies, scoring, release epochs | exact conditions of the failures: C57 from the callback, C58 from C85 and C86, C80 from the wrapping addition |
| C83 | whole histories | C04, C05, C71 and a conservation law of recorded against real stake; losses of providers as explicit terms |
| C84 | providers, withdraw | counterexample history (`_refuted`) plus `_partial` theorem from C83 |
| C85 | delegatePending, selection, score | both directions: every abort point of the selection turned into a condition on the records |
| C86 | unDelegatePending, selection, score | as C85 |
| C87 | unDelegate, unstake tokens | injectivity invariant on attributes; the nonce of the current pair is kept by every action |
| C88 | all 28 endpoints | a table of conditions (`acceptable`); each endpoint's monadic body reduced to its conditions by rewriting, using C78, C85, C86 |
| C89 | all callbacks | a table of conditions (`bookable`), from the in-flight invariants |
| C90 | every action | a potential (what the group was sent + worth of its tokens − what it paid) that every action of `did` raises by at most the credited rewards |
| C91 | every action | cross-multiplied price change per action, summed over the history |
| C92 | the provider callbacks | each booking is a function of the record of one provider and of sums in the pool; those functions commute |
| C93 | selection and rotation of the two lists | each action rewrites a list as the rest ++ asked ++ new; induction over histories on the number of providers ahead |
| C94 | callbacks that abort | case by case over `step`: pending amounts against unanswered calls; induction over histories |
| C95 | `selection.rs` as a whole | the two loops equal a two-round rule written on the records; induction on the candidates |
| C96 | `views.rs`, records, lists | corollary of the list invariant (unlisted records are empty), C05 and C30 |
| C97, C98 | every EGLD transfer, call with EGLD and token transfer in the log; token ledgers | inspection of every action in closed form (`did`); history bound by induction |
| C99 | init, token issue, activation, first deposit | deployment by computation; an invariant that holds until the LS token is issued; the owner's actions in closed form |
| C100 | exec, all callbacks, then withdrawPending, delegate, withdraw | the oldest reply is always bookable while the books are in step (C29); the parts the exit needs are not touched by replies (C101); then C77 |
| C101 | every endpoint, callback and outside event | by cases on the closed form of each action, part by part |
| C102 | unDelegatePending, exec, callback | one round: C54 (accepted) and C82 (moves at least 1 EGLD) for the whole queue or all but 1 EGLD of it; the providers hold what is recorded (C30); induction on the queue |
| C103 | claim-rewards callback, addRewards, delegate, unDelegate | exact effects (C31, C65, C16, C17) and integer arithmetic |
| C104 | every action; withdraw | no other action lowers the pot (closed form of each action); release epochs are fixed (C19), bystanders keep their tokens (C23) |
| C105 | withdrawPending, delegate, withdraw | the state after collecting (C77) covers all claims; induction on the list; from anywhere by C100 |
| C106 | every setter, changes of records, callbacks | for every part: what each action says about it (closed form), induction from the end of the history |
| C107 | delegatePending, callbacks, changes of parameters | only eligible providers are selected (C24); eligibility is what was last said (C106) |
| C108 | every action | each action that changes the pool ends with an event that carries it (closed form); induction on the history |
| C109 | every action | the step function commutes with renaming: one lemma per model function, up to step; induction on the history |
| C110 | encodings of structures and values | numbers in base 256; every reader undoes its writer and leaves the rest; composition |
| C111 | keys | fixed texts and fixed-width suffixes: injective by cases |
| C112 | SetMapper, UnorderedSetMapper | invariant: the nodes are linked in the order of the list (the slots hold it by position); one lemma per call; induction on the calls; `C112_nothing_left`: the invariant also says which keys are empty; `C112_own_entries`: with the keys of C111, which do not overlap |
| C113 | the whole storage | the change of the state in a step is a change of single entries and list calls (closed form of each action); C110, C111, C112; induction on the history; `C113_small_inputs`: that every stored value fits its type is an invariant when the arguments do and the EGLD coming in is bounded (the queue and the books of a provider never exceed it) |
| C114 | exported functions, decoding of arguments, init | the decoder accepts exactly what the interface declares (by cases on the name); a history of byte calls is a history of the model; with C113, arguments that come as bytes need no hypothesis about their size |
| C115 | the views | each view reads entries of which C113 says what they contain; surplus, missing and malformed arguments are refused, view by view |
| C116 | the events of `events.rs` | every topic is read back (C110), fields in the order of the structure |
| C117 | the mocks' answers | every answer of a mock is an outcome that `exec_call` admits; invariant: stake in the model = stake in the mock |
| C118 | the mocks' requirements | invariant over orderly histories executed in turn: un-delegations out are within the stake at the mock after the calls sent before; that the order is needed by a witness |
| C119 | balances of mocks and manager | invariant of each mock (supply, balance); sums over all mocks; a witness for a mock that runs short |
| C120 | the mocks' answers | C100 and C105 with the answers computed by the mocks; the unbonding period of the mock is 10 |
| C121 | the table of nonces and the contract's balance of each | invariant over `did`: balance = 1 + units sent while in the table; the table rule from the cleaning rule |
| C122 | messages and promises as bytes | round trips of the encodings; invariant over `did`: addresses and amounts of calls under way fit; step-by-step equality of the two networks |
| C123 | generated client | each method against `means`; answers through `shows`; the surplus bytes of a record; functions that do not exist |
| C124 | operators' script | each command against `means`; names against the tables of `Abi.v`; an invariant of the script's histories (no provider, only issue calls) |
| C125 | settings as inputs | step-by-step equality of the two executions for each setting not in the list; a reachable witness for each entry of the list |
| C126 | power of a provider's admin | exact acceptance of batches (C85) before and after the change; the selection loop does not look beyond its reach; invariant of blocked states |
| C127 | the pool as a vault | simulation: one lemma over the closed form of every action; induction on the history. Converse: the exact acceptance of deposits and redemptions (C88), one booking at a time |
| C128 | price over a history | by C127 every action is one booking of a vault; one inequality in exact fractions per booking; induction on the history |
| C129 | deposits that were never staked | false: a newcomer deposits between the reply to claimRewards and its callback (witness by `vm_compute`). What is true follows from C128 and the exact amounts of C10, in fractions |
| C130 | order of trades | C128 without gains: two prices within one part in S/t; the exact amounts of C10 at both prices |
| C131 | joining and splitting calls | acceptance (C88) and effects (C20) of the joint call against those of the two calls; induction on the list of payments |
| C132 | time of a withdrawal | a relation between a state and the same with more in the pot and more unstake tokens at one account; every function of the model preserves it, up to the events |
| C133 | claims of the fees | a relation between a state and the same with more fees; every other function preserves it up to the events, and a claim moves along it |
| C134 | withdrawals and the others | the relation of C132 for any holders; every other function preserves it up to the events, and a withdrawal moves along it |
| C135 | what matters of a history | C134, then C133, then refused actions, on the lists of actions with their statuses |

## 4. Trusted base

Coq 8.16.1 kernel (including `vm_compute`, used for concrete examples and
counterexamples); std++ as a library of definitions and lemmas (checked by the
kernel); the correspondence between the Rust text and the model, given by the
file/line citations at each definition and tested by `Conformance.v`; the platform assumptions above. The
output of `Print Assumptions` per theorem is listed in section 5.

## 5. `Print Assumptions` per theorem

Every theorem below prints `Closed under the global context`: no axiom, no
parameter. The compiled library of std++ loads the seven constants
`Coq.ssr.ssrunder.Under_rel.{Over_rel, over_rel, over_rel_done, Under_rel,
Under_rel_from_rel, Under_relE, under_rel_done}` of the standard library's
ssreflect (an opaque module seen as axioms by `coqchk`); no theorem here uses them.

* `P_Abi.v`: `C114_calls`, `C114_one_meaning`, `C114_callable`, `C114_no_effect`, `C114_deployment`, `C114_histories`, `C114_storage`, `C115_views`, `C115_always`, `C115_only_views`, `C115_arguments`, `C116_events`, `C116_no_confusion`, `C116_observer`
* `P_Accept.v`: `C88_accepted`, `C89_booked`, `C89_refused`
* `P_Access.v`: `C37_owner_only`, `C37_config_changes`, `C38_manager_only`, `C38_managers_change`, `C38_managers_added`, `C38_manager_removed`, `C38_managers_distinct`, `C39_params_effect`, `C39_params_accepted`, `C39_only_admins`, `C40_paused`, `C40_replies_booked`, `C41_migrate`, `C41_migrate_pending`, `C44_events_correct`, `C44_no_silent_change`, `C45_claim_fees`, `C45_available`
* `P_Acct.v`: `C01_liquid_solvency`, `C02_payouts_never_bounce`, `C03_supply_is_tokens_in_existence`, `C08_price_at_least_one`
* `P_Alike.v`: `C109_alike`, `C109_histories`, `C109_reachable`, `C109_any_two`, `C109_newcomers`
* `P_Away.v`: `C134_withdrawals`
* `P_Batch.v`: `C24_delegate_batch`, `C25_undelegate_batch`, `C26_delegation_rejected`, `C26_delegation_accepted`, `C27_undelegation_rejected`, `C27_undelegation_accepted`, `C28_withdrawn_credited`, `C28_empty_reply`, `C31_reward_split`, `C31_reward_booked`, `C32_whitelisting_starts`, `C32_whitelisting_rejected`, `C32_whitelisting_accepted`, `C32_listed_for_good`, `C33_lists_consistent`, `C33_lists_change`, `C42_bounds`, `C43_tokens_final`, `C43_issued_once`, `C43_gated`
* `P_Books.v`: `C71_balance_explained`, `C72_fees_explained`, `C73_no_egld_lost`, `C74_holding_is_safe`, `C75_books_move`, `C75_record_appears`, `C75_record_goes`
* `P_Coal.v`: `C90_group_gain`, `C90_group_gain_empty`, `C91_price_steady`
* `P_Comm.v`: `C92_any_order`, `C92_same_provider`
* `P_Drain.v`: `C102_queue_drains`
* `P_Earn.v`: `C128_price_history`, `C128_dust_small`, `C128_holder`
* `P_Essence.v`: `C135_essence`
* `P_Exact.v`: `C49_locked_exactly`, `C56_cap_history_partial`, `C59_idle_exactly`, `C82_idle_exactly`, `C81_limit_exactly`, `C60_price_history_partial`, `C60_negligible_partial`
* `P_Exact2.v`: `C57_stranded_exactly`, `C58_config_exactly`, `C80_release_exactly`
* `P_Exit.v`: `C76_balance_irrelevant`, `C76_donation_inert`, `C77_tokens_paid_out`, `C77_holder_paid_out`
* `P_Exits.v`: `C97_ways_out`, `C97_received_at_most`, `C97_operators_take_nothing`, `C98_ls_tokens_appear`, `C98_unstake_tokens_appear`
* `P_Find.v`: `C46_reentrance_refuted`, `C46_reentrance_partial`, `C47_admin_blocks_refuted`, `C47_change_within_partial`, `C48_limit_refuted`, `C48_limit_partial`, `C48_bound_reached`, `C49_lock_out_refuted`, `C49_supply_partial`, `C49_deposits_partial`, `C50_weights_refuted`, `C50_weights_partial`, `C51_order_refuted`, `C51_order_partial`, `C52_fee_refuted`, `C52_fee_partial`, `C53_withdraw_refuted`, `C53_accounted_partial`, `C54_queue_refuted`, `C54_queue_partial`, `C55_failure_refuted`, `C55_failure_partial`, `C56_cap_refuted`, `C56_cap_partial`, `C57_payment_refuted`, `C57_payment_partial`, `C58_config_refuted`, `C58_config_partial`, `C59_progress_refuted`, `C59_progress_partial`, `C60_loss_refuted`, `C60_loss_partial`
* `P_Find2.v`: `C78_matured_token_refuted`, `C78_matured_token_partial`, `C79_paid_in_order_refuted`, `C79_paid_in_order_partial`, `C80_release_refuted`, `C80_release_partial`, `C81_max_selected_refuted`, `C81_max_selected_partial`, `C82_batch_moves_refuted`, `C82_batch_moves_partial`
* `P_Flow.v`: `C04_unstake_tokens_backed`, `C04_unstake_tokens_backed_always`, `C05_reserve_backed`, `C05_reserve_backed_always`, `C06_in_flight_exact`, `C06_in_flight_never_smaller`, `C06_no_record_no_call`, `C06_unbonding_is_sum`
* `P_Frame.v`: `C101_nothing_else`, `C101_history`
* `P_Front.v`: `C129_snipe_refuted`, `C129_share_partial`, `C130_deposit`, `C130_redeem`
* `P_Iff.v`: `C85_delegate_batch_accepted`, `C86_undelegate_batch_accepted`, `C87_one_token`, `C87_same_token`
* `P_Join.v`: `C131_withdraw`, `C131_rewards`, `C131_managers`
* `P_Last.v`: `C106_settings`, `C106_managers`, `C106_records`, `C107_vouched`, `C107_out_until_put_back`, `C108_events_tell_all`
* `P_Later.v`: `C132_any_time`
* `P_Leave.v`: `C105_together`, `C105_from_anywhere`, `C105_without_deposit`
* `P_Lost.v`: `C94_lost_replies`, `C94_lost_replies_total`, `C94_abort`, `C94_nothing_lost`
* `P_Mnet.v`: `C117_a_history`, `C117_books`, `C117_executes`, `C118_outcomes`, `C118_never_refused`, `C118_order_needed`, `C119_conserved`, `C119_mock_balance`, `C119_covered`, `C119_can_run_short`, `C120_settles`, `C120_everybody_leaves`, `C120_from_anywhere`
* `P_Mock.v`: `C61_mock_books`, `C61_mock_admissible`, `C62_manager_mock_pays`, `C62_manager_mock_can_pay`
* `P_More.v`: `C63_stored`, `C63_available`, `C64_withdraw_asked`, `C64_withdraw_available`, `C64_claim_asked`, `C64_claim_available`, `C64_staked_listed`, `C65_rewards_added`, `C65_available`, `C66_admin_replaced`, `C66_available`, `C67_started`, `C67_available`, `C67_issued`, `C67_refused`, `C68_payments`
* `P_Often.v`: `C133_claims`
* `P_Order.v`: `C29_no_callback_aborts`, `C30_books_follow`, `C30_books_equal`
* `P_Own.v`: `C121_own_units`, `C121_table`, `C121_final`
* `P_Pool.v`: `C07_rate_never_decreases`, `C09_no_profit`, `C09_round_trip`, `C10_mint_exact`, `C10_redeem_exact`, `C11_split_deposits`, `C11_split_redemptions`, `C12_deposit_quote`, `C12_redeem_quote`, `C12_deposit_quotes`, `C12_redeem_quotes`, `C13_full_exit`, `C13_full_exit_works`, `C13_quotes_fit`, `C14_rate_value`, `C14_rate_at_least_one`, `C14_rate_monotone`, `C15_delegate_matching`, `C15_undelegate_matching`, `C18_instant_redemption`
* `P_Pot.v`: `C104_pot_lasts`, `C104_paid_later`, `C104_order_irrelevant`
* `P_Power.v`: `C126_exactly_when`, `C126_first_blocks_all`, `C126_outsiders`, `C126_unstaking_unharmed`
* `P_Proxy.v`: `C123_methods_refuted`, `C123_methods_partial`, `C123_payments`, `C123_out_of_reach`, `C123_within_reach`, `C123_deployment`, `C123_answers_refuted`, `C123_info_never`, `C123_answers_partial`, `C123_always_partial`
* `P_Real.v`: `C83_promises_explained`, `C83_promises_covered`, `C84_loss_shared_refuted`, `C84_shortfall_stays_partial`
* `P_Score.v`: `C34_better_scores_higher`, `C34_score_exists`, `C34_category_bounds`, `C35_shares_fit`, `C35_delegation_split`, `C35_top_provider_served`, `C36_undelegation_works`, `C36_net_stakes`
* `P_Script.v`: `C124_deployment`, `C124_commands_refuted`, `C124_commands_partial`, `C124_misnamed`, `C124_no_whitelisting`, `C124_unanswered`, `C124_answered`, `C124_never_staked`, `C124_start`
* `P_Select.v`: `C69_delegation_split`, `C70_undelegation_candidates`
* `P_Setting.v`: `C125_no_difference`, `C125_ignored`, `C125_replaced`, `C125_rounds_are_dead`, `C125_list_is_exact`, `C125_blind_to_stakes`
* `P_Settle.v`: `C100_settles`, `C100_refusals_settle`, `C100_paid_from_anywhere`
* `P_Share.v`: `C103_proportional`, `C103_late_deposit`
* `P_Split.v`: `C95_delegation_amounts`, `C95_undelegation_amounts`
* `P_Start.v`: `C99_deployed_when`, `C99_deployed_state`, `C99_nothing_before`, `C99_first_deposit`
* `P_Store.v`: `C110_record`, `C110_receipt`, `C110_scoring`, `C110_values`, `C111_no_overlap`, `C111_not_reserved`, `C112_linked_list`, `C112_vector`, `C112_last_word`, `C112_nothing_left`, `C112_own_entries`
* `P_Track.v`: `C113_storage`, `C113_small_inputs`
* `P_Turn.v`: `C93_turn_to_stake`, `C93_turn_to_unstake`, `C93_not_passed_over`, `C93_not_passed_over_unstaking`
* `P_User.v`: `C16_delegate`, `C17_undelegate`, `C19_release_of_new_tokens`, `C19_release_never_changes`, `C19_locked`, `C20_withdraw`, `C20_tokens_kept`, `C21_pot_covers_all`, `C21_withdraw_in_full`, `C22_nonces_readable`, `C22_cleaned_nonce_not_reused`, `C23_bystander`
* `P_Vault.v`: `C127_is_a_vault`, `C127_nothing_else_matters`, `C127_every_vault`
* `P_View.v`: `C96_views_answer`, `C96_views_add_up`, `C96_reserve_from_views`, `C96_views_true`
* `P_Wire.v`: `C122_sendable`, `C122_callbacks`, `C122_received`, `C122_one_call`, `C122_history`
