# Verification design: KYVENetwork/chain

Everything is in Coq 8.16.1 (`rocq/theories`, logical name `Verif`), with
std++ (`gmap`, sorting) as the only library besides the standard library.

## 1. How the code is modelled

* **Executable Gallina, function by function.** Every keeper function listed in
  section 4 has one Gallina function with the same control flow. Each definition
  cites file and lines in `/repo`. Keeper methods take and return the module's
  state record; a message handler returns `option state`/`result`: `None`
  means that the SDK rolled the transaction back (state unchanged).
* **State.** A KV store is a `gmap` from logical key to value. That byte keys
  do not collide, and that prefix iteration selects the right records, is
  proved separately in the key model (C48). Iteration in key order is modelled
  by sorting the keys.
* **Numbers.** Amounts are `Z`. Where Go computes on `uint64` and wrap-around
  is possible (subtraction, or an addition whose operand is chosen by a user)
  the model wraps explicitly with `mod 2^64`; theorems then prove that the
  wrap-around does not happen or give a witness that it does. Decimals
  (`LegacyDec`) are `Z` scaled by 10^18 with the SDK's rounding: `Mul` and
  `Quo` round half to even, `MulTruncate`/`TruncateInt` round toward zero.
* **Coins.** `gmap denom Z` without zero entries (`sdk.Coins` invariants).
* **Addresses and denoms** are opaque `N` (0 = the empty string). Bech32
  decoding of stored addresses is not modelled (they were decoded in
  `ValidateBasic`).
* **Bank.** `gmap (account, denom) Z` with a `send` that fails on insufficient
  funds. Blocked addresses, send-enabled flags, vesting-account locks are not
  modelled.
* **`PanicHalt`** schedules an upgrade and *returns*. Modelled as a sticky
  `halted` flag; execution continues, as in Go.
* **Telemetry and gas** are not modelled. Events are in `Events.v` (C73), next
  to the functions that emit them; the other files do without them.
* **Other modules' calls** are inputs (arbitrary oracle values or operations of
  the machine) in the per-module machines.

## 2. Trusted base

* Coq's kernel (8.16.1), including `vm_compute` (used in `Example`s and
  `_refuted` witnesses only).
* `Print Assumptions` of every claimed theorem: expected
  "Closed under the global context". Exceptions are listed in section 6.
* The SDK pieces re-stated in the model from their documented behaviour, because
  the dependency sources are not available offline: `cosmossdk.io/math` v1.3.0
  `LegacyDec` (Mul, MulTruncate, Quo, TruncateInt, RoundInt, Ceil),
  `sdk.Coins` (Add, Sub, Min, AmountOf, DenomsSubsetOf, IsAnyGT, IsAllGTE),
  `DecCoins` (QuoDec, MulDec, Sub, Add), bank `SendCoins*`, `BurnCoins`,
  transaction atomicity of `runTx` (a failed message or post handler reverts
  the messages), store iterators visiting keys in byte order.
* The hand translation from Go to Gallina.

Not modelled: protobuf encoding, bech32, CLI, simulation, the SDK's own migrations
and upgrades before v1.5, IBC, wasm, CometBFT, the SDK gov module fork, the
wall clock (block time is an input).

## 3. Plan per property

| Property | Modelled | Proof idea |
|---|---|---|
| C01 | `Delegation` F1 machine: entries, slashes, delegators, totals | invariant: scaled sum of exact balances vs. total, slash-rounding slack (one per slash) |
| C02 | F1 machine with bank | invariant: module balance >= totals + un-withdrawn rewards - rounding slack; with a reserve of the rounding in whole units the same as an equation, for histories of any length (`DelegationCushion`) |
| C03 | F1 machine | structural invariant: every delegator's `KIndex` entry exists, entries are exactly those referenced plus the latest; entry values monotone in k |
| C04 | withdraw and outstanding functions | both unfold to the same sum; the in-flight period equals the entry that withdraw creates |
| C05 | F1 machine | rounding allowance invariant; `_refuted` witness for the exact claim |
| C06 | F1 machine | frame lemmas; outstanding rewards unchanged by starting a period |
| C07 | queue machine | index invariant low <= high, entries exactly (low, high]; ghost log; on time while the uint64 sum does not wrap, witness when it does |
| C08 | redelegation cooldown machine | sliding window invariant on sorted list of dates, cooldown below 2^63; witness for 2^63 |
| C09 | redelegate message | composition of C04/C06 lemmas |
| C10 | slash | arithmetic of `MulTruncate`, one-slash step |
| C11 | payout | false (delegation data is never deleted): `_refuted`; `_partial` for never-delegated stakers |
| C12, C13 | stakers machine | invariants over membership map and counters |
| C14 | commission queue | invariant + ghost request log |
| C15 | leave queue | `_refuted` (stale entry after kick), `_partial` for histories without kick |
| C16 | `ensureFreeSlot` + join | minimality of fold, exact acceptance condition |
| C17 | commission rewards | solvency invariant |
| C18, C19 | vote lists, tally | NoDup invariant; sum over disjoint sublists <= total; majority arithmetic |
| C20, C21 | archive machine | contiguity invariant; lookup by sorted starts |
| C22 | `calculatePayouts` | decimal arithmetic per denom |
| C23 | tally | slash log as function of vote lists |
| C24 | points | exact effect of every message and of a pool's turn at the end of a block; `_refuted` for skip |
| C25, C26 | round robin | argmax in candidate set; zero-sum invariant; bounded progress |
| C27 | submit guard | decision procedure equivalence |
| C28 | status query vs. assert | case analysis |
| C29 | upload timeout | case analysis of end block per pool |
| C30 | inflation split | the block as a list of transfers; sums of rounded shares; `_refuted` for remainder, completeness, overspending |
| C31 | inflation charge | arithmetic |
| C32-C38 | funders machine | sum invariants over gmap, list invariants, parameter checks |
| C39, C40 | pool machine | time-indexed invariants |
| C41-C44 | team machine | arithmetic monotonicity, invariants; `_refuted` for C43 |
| C45, C47, C56 | one transaction with arbitrary messages: ante handler, messages, post handler | ceiling and floor arithmetic; first-match lists; `_refuted` for mempool, grants, nested messages |
| C46 | fee burning | end block as transfers that leave the fee collector alone, then one burn |
| C54 | money of all accounts | every message as a list of transfers along allowed edges |
| C55 | payments of a finalized bundle in the chain | uploader is a staker (invariant), the charge and payout specifications composed, slashes as a relation |
| C48, C57 | byte-level keys and iterators | big-endian injectivity, the unique "1" of bech32, sorted visits; `_refuted` for long addresses |
| C49 | pagination of the staker queries over chain states and restarted nodes | invariant of the staker index, list lemmas about pages, `_refuted` for pool count, phantoms, restarts |
| C50 | genesis states as lists of records in any order: export, validation, import | one lemma for loops that write keyed records, invariants of the queues and their indexes, F1 records and slashes; `_refuted` for stale leave entries, the whitelist and duplicates |
| C51, C59 | updates by JSON payloads over the chain | frame of the parameters under all operations, merging of lists by position, validity invariant, simulation by the chain's histories; `_refuted` for coins, whitelist, event |
| C52 | what `x/stakers` reports to governance, over chain states | index of active stakers, C01 for the chain (delegators tracked through `ChainLift`), `_refuted` for validators without shares |
| C58 | pagination of the finalized bundles | the archive as a list of consecutive ids; `_refuted` for reverse offsets |
| C60, C63 | account queries over chain states | rewards and fundings as effects of the messages that collect them, the queue of requests as a list, pages of the address maps; `_refuted` for repeated requests and wrap-around |
| C61 | redelegation records over chain states | invariant of the dates (sorted, not in the future), ghost list of accepted redelegations; `_refuted` for the same block and a lowered maximum |
| C62 | the three questions next to the four message servers | case analysis of the shared checks, the tally is total below 2^63; `_refuted` for a bundle without quorum |
| C53 | proportional share of a payout | rounding bounds of the ledger, two-sided |
| C65 | queries about funders and fundings over chain states | the keys of the two funding stores as sorted pairs, pages with records that may fail, the history of accepted fund messages, sums over the pools of a funder and the funders of a pool; `_refuted` for values of 2^63 |
| C66 | queries about pools, stakers and the vote over chain states | members are in existing pools, balances fit in 64 bits because the supply does, the commission queue and its index agree, sums over members; `_partial`: the vote of a pool with less than 2^64 delegated; `_refuted` for the outcome |
| C67 | the upgrade handler over all old states | record by record; the result equals a run of parameter, pool and schedule messages of the governance module, so it is reached by a history; `_refuted` for shares, running pools and proposals |
| C68 | the whole chain | the observations of `StepCases.v` for who can act, the module's choice (C25) lifted through the tally, which takes nothing from the winning voters; `_refuted` for skips, voters, invalid bundles and claims |
| C69 | `Team.v`, `TeamQuery.v` | a spec of the plan without decimals and wrap-around; acceptance of each message compared with the shown amount by the invariants of C42-C44; the forecast by a frame lemma for the account; `_refuted` above the cap and for commencements near 2^64 |
| C70 | `Wire.v` | the checks compared with a declarative list of conditions per message; every raw history is simulated by a history of `Chain.v` that satisfies `cops_ok`; addresses by a frame argument over all operations (`WireFrame.v`) |
| C71 | `Wire.v` | the profile as that of the last accepted message of its owner, by induction from the end of the history; who has one by an invariant; `_refuted` for the limits of funders and for telling stakers apart |
| C72 | `Wire.v`, `Chain.v` | per message a list of effects on what is stored per user, staker, funding, team account, proposal and pool, with everything else unchanged; from the specifications of the modules, lifted to every raw history by C70 |
| C73 | `Events.v` | a follower per kind of data reads the events of a history; by induction over the history, what it has equals what is stored; the submissions, skips and timeouts are walked once for all followers (`EventWalk.v`, `EventFollow.v`); balances of users by C75; `_refuted` for a displaced funder, the next uploader, applied upgrades, the time of an upgrade and those who leave without being members |
| C74 | `RoundRobin.v` | the values before a selection in closed form; whoever stands lower by more than the difference of the delegations is not the maximum; `_refuted` after others have left |
| C75 | `Events.v` | every event is a set of transfers between accounts; every step moves what its events say (`EventMoney.v`, valid bundles from the exact effect of charging the funders, the inflation and the payouts), then by induction over the history; `_refuted` for a pool that is disabled |
| C76 | `Events.v` | per event a small predicate on the states before and after (`says`, `reports`, `tells_votes`), proved by cases of the step; the counts by the vocabulary of the tally (`TallyClaims.v`), the turns of the other pools by a lemma that powers only fall; the queue of unbondings by a follower; `_refuted` for five fields |
| C77 | `Chain.v` | each module's part of a chain state is reached by a history of that module (`ChainLift.v`), so its theorems apply to the running chain; for x/team, which the other modules could only starve, frames and money flows; unbonding through the decomposition of a block |
| C78 | `Gifts.v` | a join to any account is a join and an outside change of the bank, so every history is a chain history; what the module holds beyond its fundings only grows (invariant of the chain lift); a concrete history for the refutation |
| C79 | `Bundles.v`, `Chain.v` | one turn of a pool at the end of a block (the cases of C29), read with the stake for and against the bundle; that no step but an update or a disabling reaches a pool at its end key is an induction over all steps; concrete histories for the refutations |
| C80 | `Delegation.v`, `Chain.v` | walk relation over all steps for one delegator and staker (balance between two folds of the slash fractions, entries of the unbonding queue not older than the start), joined with the effects of a tally (C72); concrete history for the refutation |
| C81 | `Bundles.v` | the check of a pool against a written list of conditions (maximum of a fold, truncated product); the majority of C19 with every stake bounded by the maximum; concrete history for the refutation |
| C82 | `Team.v`, `Chain.v` | the begin block's split of C30, inverted for the team; one quotient of 18 decimals and one rounding for the team and for each account; the sum over the accounts against the authority's credit |
| C83 | `Bundles.v`, `Delegation.v` | the totals of C75 after a delegation and a redelegation without wrapping, summed over the members on a list; concrete history for the refutation |
| C84 | `Delegation.v`, `Chain.v` | the share of C53 after a delegation that changes the total as in C83; concrete history for the refutation |
| C85 | `Bundles.v`, `Delegation.v` | the conditions of C81 before and after the change of stakes of C83; concrete history for the refutation |
| C86 | `Chain.v`, `Delegation.v`, `Stakers.v` | C77 with the frame of the parameters; every entry of the queues of x/stakers is a request of the history; concrete histories for the refutations |
| C87 | `Bundles.v`, `Pool.v` | the conditions of C81: the sum of the stakes against the largest; concrete history for the refutation |
| C64 | the flags by which the chain stops, over chain histories | the walk through all steps of x/bundles keeps the invariant and the flags; the tally is total and never leaves an error in a reachable state; history form with a condition on submissions and whitelist updates; `_refuted` for the end of a block |

## 4. Modelled / not modelled, by file

Model files contain definitions only; proofs are in the other files; the claimed
theorems with `Print Assumptions` are in `Properties_*.v`.

| Model file | Code modelled | Simplified or left out |
|---|---|---|
| `Base.v` | uint64 arithmetic, `LegacyDec`, `Coins`, bank `send`/`mint`/`burn`, ordered stores | from the SDK's documented behaviour |
| `Delegation.v` | `x/delegation/keeper`: all of `logic_f1distribution.go`, `logic_delegation.go`, `logic_unbonding.go`, `logic_redelegation.go`, `exported_functions.go` (payout, slash, queries), messages delegate/undelegate/redelegate/withdraw, begin block, parameters | "staker exists" and "staker is active" are inputs of the messages; events, genesis |
| `Funders.v` | `x/funders/keeper`: `logic_funders.go`, messages create funder/fund/defund, `GetActiveFundings`, `x/funders/types/funders.go`, parameter validation | the two stores of a funding are one map; moniker etc. left out; update funder is in `Wire.v` (genesis: `Genesis.v`, pages: `Fundings.v`); others take nothing from the module's bank account, but may put coins into it |
| `Team.v` | `x/team`: `keeper/logic_team.go`, the five message servers, `abci.go` | accounts are a list indexed by id (ids are consecutive, accounts are never deleted); mint provision and supply are inputs of the block; genesis import (see `Genesis.v`) |
| `TeamQuery.v` | `x/team`: `keeper/grpc_team_info.go`, `grpc_team_vesting_account.go`, `grpc_team_vesting_status.go`, `grpc_query_vesting_status_by_time.go`, `GetVestingStatus`, `GetVestingPlan`, `GetTeamInfo` | the text form of dates (they are seconds), nil requests |
| `Stakers.v` | `x/stakers/keeper`: `logic_commission.go`, `logic_leave.go`, `logic_queue.go`, `logic_stakers.go`, messages create staker/update commission/claim commission rewards/join/leave, `LeavePool`, `AssertValaccountAuthorized`, points, `module.go` BeginBlock | the two valaccount stores are one map; delegations, pool state and success of the self delegation are inputs; metadata, genesis, `GetActiveValidators`/`GetDelegations` |
| `RoundRobin.v` | `x/bundles/keeper/logic_round_robin.go`, `chooseNextUploader`, `chooseNextUploaderFromList` | the Go map of progress values is a field of the validator; unbounded int64 (`C26_bounded` gives the bounds) |
| `Pool.v` | `x/pool`: `getters_pool.go`, `logic_pool.go` (bundle counters), messages create/update/enable/disable pool, schedule/cancel runtime upgrade, `logic_end_block_handle_pool_upgrades.go`, parameter validation | name, logo, config, start key left out; strings are numbers; the JSON payload of an update is given by its fields |
| `Bundles.v` | `x/bundles/keeper`: `logic_bundles.go`, `logic_end_block_handle_upload_timeout.go`, the four message servers, `getters_bundles.go`, `x/bundles/abci.go`; `ChargeInflationPool`; `GetPoolStatus` | one bank shared by all modules; a panic is a result; decimals are unbounded (the 315 bit limit of `LegacyDec` is not modelled); bundle versions, genesis, migrations left out |
| `Chain.v` | the block cycle and all messages over one state: begin block mint, team, bundles, delegation, stakers; end block pool, bundles, global (fee burning) | SDK modules appear as arbitrary changes of the other accounts (`CBank`) |
| `Global.v` | `x/global/ante.go`, `post.go`, `utils.go`, `app/ante.go`: surcharges, minimum gas price, fee deduction, refund | a machine of its own; messages are an arbitrary function; the other ante decorators are one flag and an amount of gas; `DeductFeeDecorator`, x/feegrant allowances and `runTx` re-stated from the SDK; fee burning is in `Chain.v`; block gas limit, simulation |
| `Keys.v` | `util/logic.go`, `x/*/types/keys.go`; the functions that take keys apart in `getters_valaccount.go`, `getters_delegator.go`, `getters_redelegation.go`, `getters_delegation_slash.go`, `getters_index_stakers.go` | a machine of its own: the other models use logical maps, which C48 justifies for addresses of 43 bytes; encoded values; iterators and prefix stores of the SDK re-stated as sorted visits |
| `Query.v` | `x/delegation/keeper/getters_index_stakers.go`, `keeper.go` (index after a restart), `x/query/keeper/grpc_query_staker.go` (Stakers), `grpc_query_stakers_by_pool_count.go`, `x/bundles/keeper/getters_bundles.go` (GetPaginatedFinalizedBundleQuery) | the assembled response records are left out: a query returns addresses or stored bundles; `ParsePagination` and `FilteredPaginate` re-stated from the SDK; the reverse flag of the staker queries; other queries |
| `Gov.v` | `x/stakers/keeper/exported_functions.go` (TotalBondedTokens, GetActiveValidators, GetDelegations), `getters_staker.go` (isActiveStaker, getAllActiveStakers), `x/delegation/keeper/getters_delegator.go` (GetStakersByDelegator) | order of the lists, address decoding; the tally itself is SDK code (its division is restated in `GovClaims.v`) |
| `Params.v` | `msg_server_update_params.go` of the six modules, ValidateBasic of `MsgUpdateParams`, `DefaultParams` and `Validate` in `x/*/types/params.go`, the event's old and new parameters | a payload is a record of named fields: JSON text, null, repeated names and other capitalisation are left out; merging into slices follows `encoding/json` of Go 1.22 |
| `Genesis.v` | `genesis.go` and `types/genesis.go` of `x/delegation`, `x/stakers`, `x/funders`, `x/pool`, `x/bundles`, `x/team` | the records are listed in an arbitrary order; JSON, `x/global`, the genesis of the SDK modules (balances and times are inputs), bundle versions |
| `Account.v` | `x/query/keeper`: `grpc_account_assets.go`, `grpc_account_redelegation.go`, `grpc_account_delegation_unbondings.go`, `grpc_delegation_delegator.go`, `grpc_delegation_delegators_by_staker.go`, `grpc_delegation_stakers_by_delegator.go`, `grpc_query_can_vote.go`, `grpc_query_can_propose.go`, `grpc_query_can_validate.go` | the full staker records in the answers, reasons given as text, the reverse flag; the protocol self-delegation fields are those of the delegations |
| `Fundings.v` | `x/query/keeper`: `grpc_query_fundings.go`, `grpc_query_funders.go`, `grpc_account_funded.go`; `x/funders/keeper`: `getters_funding.go` (lists and pages), `getters_funder.go` (pages) | metadata of funders and pools; a search is a set of funders; the reverse flag |
| `Listings.v` | `x/query/keeper`: `grpc_query_pool.go`, `helper.go`, `grpc_query_staker.go` (Staker), `grpc_query_stakers_by_pool.go`, `grpc_current_vote_status.go`; `x/pool/keeper/getters_pool.go` (pages), `x/stakers/keeper`: `getters_valaccount.go` (lists), `getters_commission.go` (lookup by staker) | metadata of stakers, names and logos of pools; a search is a set of pools; the reverse flag |
| `Migrate.v` | `app/upgrades/v1_5/upgrade.go`: the handler's migrations of funders, delegation, stakers, bundles and pool, the new form of a MsgCreatePool, `upgradeRuntimes` | a loop over a store is a map over it; RunMigrations, governance parameters, titles of proposals, events and decoding are left out; the names of coins and runtimes are inputs |
| `Wire.v` | `ValidateBasic` of all messages (`x/*/types/message_*.go`, `x/pool/types/msgs.go`), `util/validate.go`, `msg_server_update_metadata.go`, `msg_server_update_funder.go` and the profiles set by create staker and create funder, the address check of `util/logic_bank.go` | which strings are addresses and denoms, and their order, are arbitrary (`grammar`); the encoding of transactions and signatures; that `ValidateBasic` runs first is done by baseapp, gov and authz |
| `Events.v` | every `EmitTypedEvent` in `x/bundles/keeper`, `x/delegation/keeper`, `x/funders/keeper`, `x/pool/keeper`, `x/stakers/keeper` and `x/team/keeper`, in the order of the code: `logic_bundles.go`, `logic_end_block_handle_upload_timeout.go`, `logic_unbonding.go`, `logic_f1distribution.go`, `logic_funders.go`, `logic_commission.go`, `logic_leave.go`, `exported_functions.go` and the message servers | events of parameters (see `Params.v`) and profiles, events of the SDK, the text form of coins |
| `Gifts.v` | `x/stakers/keeper/msg_server_join_pool.go`, `util/logic_bank.go` 9-29 with any account behind the valaddress | that SendCoins of the bank keeper does not look at blocked addresses is from the SDK |

Proofs about the integrated chain: `ChainFrame.v` and `ArchiveInv.v` (finalized bundles),
`BankMoves.v`, `ModTime.v` and `ChainLift.v` (every chain history is, seen from one module, a
history of that module's machine, so the module theorems hold in the chain), `PoolFrame.v`,
`PoolInv.v`, `PoolClaims.v` (pools, membership, dates), `TallyFacts.v`, `VoteClaims.v`,
`StepCases.v`, `PaySafe.v` (votes, submissions, skips and timeouts case by case; a payout never
fails halfway), `PointsInv.v` (points never wrap), `TallyClaims.v`, `TallyEffects.v`,
`TallyProps.v` (outcomes, slashes, points, late uploaders over all histories),
`SplitClaims.v` (the begin block's split of the provision), `MoneyFlow.v` (every message and block
as transfers along the allowed edges, supply, fee burning), `Walk.v` and `PayFlow.v` (what a
finalized bundle pays in the chain), `IndexInv.v` (the staker index in the chain and on restarted
nodes), `QueryFacts.v` and `QueryClaims.v` (pages), `SlashCount.v` (C01 with recorded slashes) and
`GovClaims.v` (voting power), `ParamsFrame.v` and `ParamsClaims.v` (parameters), `GenesisInv.v`, `GenesisFacts.v`,
`GenesisDelegation.v`, `GenesisStakers.v` and `GenesisClaims.v` (genesis states),
`HaltClaims.v` (which steps can set the flags of a halt), `AccountClaims.v`, `CoolFrame.v`, `AccountSlots.v`, `AccountLists.v` (account queries), `FundingsFrame.v`, `FundingsClaims.v` (funding queries), `FundersFull.v` (a full pool with a funding of a huge value), `ListingsClaims.v` (pool and staker queries), `MigrateClaims.v` (the upgrade to v1.5.0), `RoleClaims.v` (the uploader role), `TeamQueryClaims.v` (team queries), `TallyTotal.v` (the tally
never panics below 2^63) and `AskClaims.v` (questions of protocol nodes), `WireFrame.v`, `WireClaims.v` (messages before they reach a module, profiles), `EffectClaims.v` (what an accepted message changes), `EventWalk.v`, `EventFollow.v`, `EventStakers.v`, `EventTally.v`, `EventCommission.v`, `EventStake.v`, `EventBundles.v`, `EventAdmin.v`, `EventFunds.v`, `EventMoney.v` (what a reader of the events knows), `EventQueue.v`, `EventMeaning.v`, `EventVotes.v`, `EventFacts.v`, `EventContents.v` (what a single event says), `LiveClaims.v` (stored bundles are settled), `EscapeClaims.v` (undelegated stake is still slashed), `RunsClaims.v` (when a pool runs), `TeamShare.v` (what the team gets of the minted coins), `SwingClaims.v` (moving stake during a vote), `FreshClaims.v` (delegations just before a payout), `StopClaims.v` (delegations that stop a pool), `NoticeClaims.v`, `NoticeFrame.v` and `NoticeLeave.v` (waiting times), `CrewClaims.v` (how many stakers a running pool has). `StakersFlag.v` (who is shown as leaving) and `RoundRobinNew.v` (who has just joined) belong to the module machines. `GlobalClaims.v` and `KeysClaims.v` are about machines of their own; `DelegationCushion.v` repeats the accounting of the delegation module with a reserve, `ChainWide.v` carries the theorems of the modules over to chain histories (C77). `GiftsClaims.v`: joins that pay a module account (C78).

## 5. Findings

1. **Rounding can overpay delegators and halt the chain** (`C05_rewards_refuted`,
   `C02_solvent_refuted`). `QuoDec` and `MulDec` round half to even. With one
   delegator holding 999500249875061 base units, one holding 1, and 2002 payouts of
   one unit, delegators withdraw 2003 units. The missing unit comes from principal:
   the last undelegation cannot be paid, its queue entry is dropped and `PanicHalt`
   schedules a halt. The proved bound (`C05_rewards_partial`) gives the total drift.
   With one base unit more in the module account from the start, such a history ends well (`h6_paid`, `h6_halts` with ten times the stake
   and 202 payouts): `C02_reserve_partial` says
   how large such a reserve has to be for any history (about one base unit per 2000 payouts to a staker of 10^15 units).
2. **The outstanding-rewards query can differ from the payout by one base unit after
   a slash** (`C04_query_refuted`), because the query adds the in-flight period with
   a separate multiplication.
3. **Payouts are accepted for a staker without delegators and lost**
   (`C11_payout_refuted`). The delegation data record is never deleted, so the check
   for "no delegators" passes once somebody has delegated in the past.
4. **A fund message without coins takes a funder slot** (`C35_actives_refuted`). The
   message may carry only amounts per bundle; the funding is stored with nothing in it and
   the sender is listed as active.
5. **Topping up a funding in a full pool throws out the lowest funder**
   (`C37_displaced_refuted`). `ensureFreeSlot` only spares the sender if they are the
   lowest themselves, so a sender who already has a slot displaces someone and the pool is left with 49
   funders. A newcomer with an equal score displaces too (`C37_displaced_equal_refuted`).
6. **A whitelisted coin with a zero minimum cannot be funded at all**
   (`C38_meets_accepted_refuted`): zero coins vanish from the list of minimums and the subset check
   then fails. `MinFundingMultiple` of 2^63 or more blocks all funding (the cast to
   int64 is negative), but never an exit (`C36_full_exit`).
7. **The team allocation cap can be circumvented** by an authority, in two ways.
   Claw back an account, issue the freed allocation to a new one, lift the clawback
   (`C43_cap_refuted`): the maximum amounts add up to twice the allocation. Or create an account whose
   allocation overflows uint64 in the check (`C43_cap_overflow_refuted`): the whole module
   balance becomes claimable.
8. **Vesting status at extreme query times** (`C41_curves_refuted`): commencement plus
   vesting duration wraps around, the reported maximum is zero while tokens are vested.
9. **Team inflation with absurd provisions halts the chain** (`C44_block_refuted`):
   account shares are rounded to 18 decimals half to even; with 4*10^18 minted in a block
   they add up to more than the provision.
10. **A leave request outlives the membership it was made in** (`C15_leave_refuted`).
   Kicking a staker (slash, eviction, pool disabled) leaves its entry in the leave queue.
   After rejoining, the old entry removes the staker when it becomes due, and until then a new
   leave request is refused.
11. **A commission change time of 2^63 seconds or more means no waiting time**
   (`C14_commission_refuted`): the parameter is cast to int64 and is not validated. The leave
   time is cast the same way.
12. **An excluded staker can be selected as next uploader** (`C25_excluded_refuted`).
   `NextProposer` starts its search with `Validators[0]` even if that one is excluded. The
   staker with the smallest address can therefore skip its turn and be selected again, and can be
   selected after a bundle it did not vote on.
13. **A data size of 2^63 bytes or more halts the chain** (`C22_all_sizes_refuted`). The
   size in a submission is not checked against anything and is cast to int64. If such a bundle gets
   a majority, the negative storage cost makes `NewCoin` panic: every following submission fails,
   and after the upload timeout the panic is in the end blocker.
14. **A whitelist without the base denom halts the chain** (`C22_unlisted_refuted`). The
   parameter check for it looks at the default parameters with the payload applied, not
   at the result, so it can be left out in two steps; the weight of the inflation coin is
   then nil.
15. **An upgrade with a huge duration ends at once** (`C39_duration_refuted`). Scheduled time
   plus duration wraps around 2^64, so the plan is cleared in the block that applies it
   and the pool is not paused.
16. **Disabling a pool leaves other coins behind** (`C40_whole_balance_refuted`). Only the base
   denom is moved to the treasury; anything else sent to the pool account has no way out.
17. **Stakers are slashed for inactivity without any bundle to vote on**
   (`C24_no_bundle_refuted`). Skipping tallies the proposal even if none is stored: every
   member, the skipper included, gets a point. A pool whose uploaders skip often enough
   slashes everybody for inactivity. In the same way a bundle that stays without quorum gives a
   point for every skip, and a staker who submits without having voted on the previous
   bundle gets a point right after the reset.
18. **The uploader role can go to somebody who was just removed** (`C29_role_refuted`). At the
   timeout the next uploader is chosen first and the late one gets the point afterwards. If
   the choice falls on the late uploader again and the point is the last, the pool waits for
   a non-member until the next timeout.
19. **A late uploader can escape the point** (`C29_point_refuted`). If a bundle without quorum
   is stored, dropping it restarts the clock; when blocks are further apart than the timeout, the
   late uploader gets no point.
20. **The rounding remainder of the inflation goes to pools that cannot run, to each of them**
   (`C30_remainder_refuted`). The loop that looks for "the first active pool" tests
   `err != nil` and does not stop, so with two or more such pools more than the protocol's share
   leaves the fee collector. If every pool can run the remainder is not handed out
   (`C30_complete_refuted`). With an inflation share of 100% the extra transfers can fail, and that
   halts the chain (`C30_halt_refuted`).
21. **Rounded shares can add up to more than the protocol's share** (`C30_overspend_refuted`):
   a sixth rounded to 18 digits is too large. This needs a share of about 10^18 base units in one
   block. The uint64 remainder then wraps around, and a pool that cannot run turns that into a
   panic in the begin blocker (`e4'_case`). `C30_safe_partial` gives the range in which neither
   happens.
22. **The team's part is subtracted a second time with a larger value** (`C30_team_refuted`).
   The split asks for the team's block provision after the team's begin blocker has already
   credited it, so the pools get slightly less than their share of what the team left.
23. **A node's minimum price in another denom replaces the chain's in its mempool**
   (`C45_mempool_refuted`). `IsAnyGTE` asks for one of the required coins only, so such a node
   accepts, gossips and proposes transactions that pay nothing of the base denom. Delivery
   rejects them without taking a fee.
24. **A refunded transaction charges its fee grant twice** (`C47_grant_refuted`). `GetFeeAccount`
   in the post handler calls `UseGrantedFees` again, for the full fee, before giving a part of it
   back. A grant that covers the fee but not twice the fee makes every such transaction fail after
   its messages succeeded, with the fee taken (`C47_grant_exhausted`, `C47_fails_refuted`).
25. **A surcharge is avoided by wrapping the message** (`C56_nested_refuted`). The gas adjustment
   looks at the messages of the transaction and not into authz's `MsgExec`, which every account
   may send for itself.
26. **Accounts with 32-byte addresses are only half supported** (`C57_staker_refuted`,
   `C57_delegator_refuted`). Seven places cut keys at byte 43, the length of the text of a 20-byte
   address. Group policies (x/group is part of the app) and interchain accounts have 32-byte
   addresses, whose text has 63 bytes, and may create stakers, join pools and delegate. For
   such a staker `GetValaccountsFromStaker` returns nothing. So it may use one valaddress in several
   pools, redelegating to it fails as if it were inactive, and it has no votes through
   `GetDelegations`. Its delegations, and delegations to it, are missing from the queries of a
   delegator. Its cooldowns are exported under a truncated address.
27. **The stakers by pool count skip a page and usually fail** (`C49_poolcount_refuted`).
   `arrayPagination` starts at `page * limit` although pages count from 1, so the first `limit`
   stakers are never returned. With fewer active stakers than the limit (100 by default) the length
   passed to `make` is negative and the query panics.
28. **Anyone can add entries to the list of stakers** (`C49_phantom_refuted`). `MsgUndelegate` with
   amount 0 is accepted from any account and for any staker address, existing or not. When the entry of the
   unbonding queue is processed, `SetStakerIndex` puts the address into the index. The query
   without a search term then lists an empty record for it, until the node restarts.
29. **Nodes disagree about stakers without delegation** (`C49_restart_refuted`). A staker may be
   created with amount 0. It is in the index, but has no delegation data, from which
   `InitMemStore` builds the index after a restart. A restarted node no longer lists it. (Between
   a restart and the next block the index is empty and so is every answer.)
30. **Reverse offsets beyond the last bundle wrap around** (`C58_offset_refuted`, `C58_wrap`).
   `Total - offset` is a uint64, so the query returns the newest page again instead of nothing.
31. **A protocol validator with zero shares is reported to governance** (`C52_zero_refuted`). A
    staker that has undelegated everything (or was created with a stake of zero) stays in its pools
    and is reported with `BondedTokens = DelegatorShares = 0`. The tally of the SDK computes
    `shares.MulInt(BondedTokens).Quo(DelegatorShares)` for every validator that has voted, which
    panics for zero shares, and the tally runs in the end blocker. Whether KYVE's fork of the SDK
    guards the division cannot be seen from the repository.
32. **Whitelist entries in a payload are merged by position** (`C51_coin_refuted`). `encoding/json`
    decodes element i of the payload into element i of the current list. An entry that names a coin and
    leaves out its numbers takes those of whichever coin was at that position, while the coin's
    own numbers are lost. The same holds for storage costs, gas adjustments and gas refunds.
33. **The whitelist can lose the base denom by accepted updates** (`C59_whitelist_refuted`). ValidateBasic
    applies the payload to the default parameters, the handler to the current ones. After one
    update that moves the base denom to the second place, an update with one entry that does not
    name its denom passes the check and cuts the list to the other coin. This is how the
    state of finding 14 is reached.
34. **The event of an update misreports the old parameters** (`C59_event_refuted`). `newParams :=
    oldParams` shares the lists, so decoding the payload overwrites the elements that the
    event then reports as `OldParams` (`x/funders`, `x/bundles`, `x/global`).
35. **The exported genesis of a running chain can be invalid** (`C50_leaver_refuted`,
    `C50_whitelist_refuted`). By finding 10 a member that is removed while it is leaving keeps its
    entry in the leave queue. Until the entry is due, `Validate` of `x/stakers` rejects the
    export ("inconsistent staker leave"). `Validate` of `x/funders` rejects the state of finding 33.
    `C50_accepted_partial` says that nothing else can go wrong.
36. **Genesis validation of `x/funders` never finds a duplicate** (`C50_funders_refuted`). The loops
    look up their maps and never write to them. Of two fundings with one key the later one is kept.
37. **Genesis validation of `x/stakers` and `x/bundles` overlooks duplicates** (`C50_stakers_refuted`,
    `C50_progress_refuted`): of stakers, of round-robin progresses, and of the indices of leave
    entries. In the last case one entry is lost and its member can neither leave nor ask to leave
    again.
38. **A very long unbonding time is no waiting time** (`C07_on_time_refuted`). The parameter is validated
   only as a `uint64`; `CreationTime + UnbondingDelegationTime` wraps, so with 2^64 - 50 a request is
   paid in the next block. `C07_on_time_partial` is the statement without wrap-around.
39. **A very long redelegation cooldown is no cooldown** (`C08_redelegation_limit_refuted`). The code
   compares with `int64(cooldown)`, negative from 2^63 on: every record expires at once, the limit and
   the rule of one redelegation per block are both gone.
40. **The reported unbonding amount can be more than will be paid, or zero** (`C60_unbonding_refuted`,
    `C60_wrap_refuted`). `MsgUndelegate` compares the amount with the delegation and ignores the requests
    already pending. The same 100 can be asked back twice; AccountAssets reports 200 as unbonding
    and 100 are paid. The sum is a `uint64`: 32 requests for the same 2^59 are reported as zero.
41. **A free redelegation slot may be unusable** (`C61_slots_refuted`): the second redelegation of an
    account in one block is refused whatever AccountRedelegation reports.
42. **Lowering the maximum makes the report underflow** (`C61_lowered_refuted`). With three slots in use
    and a new maximum of 1, `AvailableSlots` is 2^64 - 2 and every redelegation is refused.
43. **CanPropose may say yes to a proposal the chain refuses** (`C62_propose_refuted`). The query stops
    before the votes are counted; with a stored bundle that has no quorum, a submission fails with
    `ErrQuorumNotReached`. Skipping works, and `C62_propose_yes_partial` says this is the only case.
44. **One funding of a huge value makes the lists of funders fail** (`C65_values_refuted`). `GetScore` calls
    `TruncateInt64`, which panics from 2^63 on. Funders, FundingsByPool and Funder then fail for every page
    that contains this funding. It takes a whitelisted coin whose weight times supply over 10^decimals is
    that large, such as one listed with too few decimals. For the same reason a pool with 50 funders, one of
    them with such a funding, accepts no fund message from anyone, also not from those who hold a slot
    (`C37_blocked`).
45. **The current vote does not foretell the outcome** (`C66_tally_refuted`). CurrentVoteStatus shows 2000 of
    4000 for valid, which is no quorum. The next submission first removes the members that have missed too
    many votes and then counts 2000 of 2000, so the bundle is finalized. While a pool has had no proposal
    yet, the query also shows a total of zero (`C66_vote_partial`).
46. **A pending proposal to create a pool takes all the inflation after the upgrade to v1.5**
    (`C67_proposal_refuted`). The handler sets the weight of every pool to 1 because all pools had 1000000,
    but turns the weight of a pending MsgCreatePool from 1000000 into 1000000.0. The new pool then gets a
    million times as much as each old one (a thousand times in the witness, where the weights were 1000).
47. **The upgrade to v1.5 changes shares and stops pools** (`C67_shares_refuted`, `C67_running_refuted`).
    Pools with different weights get equal ones; a comment in the code says that there are none on the
    network. Because the new limit on voting power is one half, a pool in which one staker has more than
    half of the delegation, so any pool with a single staker, stops. A stored total of 2^63 or more, which
    `TotalFunded` may reach over time, makes the handler panic (`C67_runs`).

48. **The uploader role can be with somebody who cannot act** (`C68_invalid_refuted`, `C68_claim_refuted`).
    When a submission shows that the stored bundle is invalid, the new bundle is not registered and the role
    stays with the sender. If the sender uploaded the invalid bundle or voted for it, the same message removed
    them from the pool; the pool waits for the upload timeout although others could act. And
    `ClaimUploaderRole` asks for membership only, so a member without any stake can take the free role.
49. **Skipping and voting do not bind the choice** (`C68_skip_refuted`, `C68_voter_refuted`). The fault of
    `NextProposer` in finding 12 shows on the whole chain: the search starts at the first staker by address,
    excluded or not. A first staker that is ahead of the others, because those joined later, gets the role
    again after skipping, and gets it after a finalized bundle it did not vote for.
50. **The team queries wrap around above the cap and for far commencements** (`C69_info_refuted`,
    `C69_claim_refuted`, `C69_status_refuted`). After a clawback is lifted (finding on C43) `team_info` shows an
    available allocation of 2^64 - 1.65 * 10^17 although no account can be created, and `vesting_status` shows
    1.65 * 10^17 as claimable of which not even 1 can be claimed, because the module account is empty. An account
    with a commencement near 2^64 (accepted, only 0 is refused) is shown as clawed back in full without a
    clawback, with vesting that ends before it begins, and does not count towards the issued allocation.
51. **Profiles of funders have no limits** (`C71_funder_limits_refuted`). `ValidateBasic` of create and
    update funder only asks that the name is not empty. The fields of a staker are limited to 255
    bytes and the identity must be a key of eight bytes in hexadecimal; a funder can store texts of any
    length, and any text as identity. Neither name nor identity is unique or checked for ownership
    (`C71_identity_refuted`): a staker can copy both of another.
    Observed on the way: `ValidateBasic` of a redelegation checks neither of the two stakers and that of the
    team messages not the recipient; the handlers make up for it (`C70_named_partial`).
52. **The event of a displaced funder has no amounts** (`C73_displaced_refuted`). `ensureFreeSlot` sets the
    amounts of the lowest funding to zero and then puts them into `EventDefundPool`, so the event says that
    nothing was paid back while all of the funding was. Whoever sums up the events believes that the pool has
    more funds than it has, for ever. In every other case the sums are right (`C73_funds_partial`).
    The refund of the displaced funder is in no event either (`C73_balances_refuted`); every other payment to or
    from a user is (`C73_balances_partial`).
53. **The next uploader is assigned and taken away without an event** (`C73_role_refuted`). At the end of a
    block the role is taken away when the pool cannot run, and assigned after the timeout when nobody has
    claimed it; `EventBundleProposed` does not have it either. Two chains with the same messages and the same
    events can have different next uploaders. The same holds for runtime upgrades: they are announced, but no
    event tells when version and binaries change (`C73_upgrade_refuted`), nor are announcements of leaving and
    of a new commission published (their execution is).
54. **The event of an upgrade has the requested time** (`C73_scheduled_refuted`). For a time that is over, the
    plan gets the time of the block, the event the time of the message.
55. **Stakers leave pools they are not in** (`C73_leave_refuted`). A staker who has voted and left the pool
    before the tally is slashed if it was on the losing side and removed once more; `EventLeavePool` is
    published a second time.
    Observed on the way: the inflation of the team (accounts and authority) is published by no event, and
    `EventPoolUpdated` has every field of the pool but the end key, which is only in the raw payload.
56. **A newcomer can be the next uploader at once** (`C74_newcomer_refuted`). New stakers start at -1.125 times
    the total delegation, which puts them at the end of a queue that is centred around zero. The queue is not
    centred any more when somebody has left: those who remain can all be far below zero (the small ones are,
    right after their turn), and the newcomer is ahead of them, in the witness for five rounds in a row.
57. **The inflation of a disabled pool moves without an event** (`C75_disabled_refuted`). Disabling a pool sends
    all that its account holds to the community pool; `EventPoolDisabled` has only the id. Among the events of
    these modules it is, with the refund of finding 52, the only payment that cannot be read from them
    (`C75_accounts_partial`, `C75_step_partial`); the split of the inflation at the beginning of a block has none either.
    (The SDK's bank module publishes every transfer on its own; this is about the events of the protocol.)
58. **The date in the event of an undelegation can be wrong** (`C76_dates_refuted`). It is computed with the time of
    unbonding at the request; the queue uses the parameter at the time of the payout. When governance changes it,
    requests that are open are paid later or earlier than published. Unchanged parameter: exact (`C76_dates_partial`).
59. **The event of a bundle that is not valid names no next uploader** (`C76_next_refuted`), also if the role was
    given to somebody in the same step (a skip, a missed deadline) or stays with the one who has it.
60. **The event of a planned upgrade has the requested time, not the one of the plan** (`C76_plan_refuted`): a time
    in the past is replaced by the time of the block, the event keeps the old one.
61. **A funder's amount per bundle can be published but not kept** (`C76_fund_refuted`): coins which the funder does
    not fund with are removed from the amounts per bundle before these are stored; the event has them.
62. **A pool can run out of funds without the event of that name** (`C76_rest_refuted`): it is published when a bundle
    uses up the last funder, but not when the last funder takes the rest back. In all other cases exactly then
    (`C76_out_of_funds`).
63. **A join message can pay coins into the protocol's own accounts, where they are lost** (`C78_gift_refuted`). The
    module accounts are blocked as recipients in `app/app_config.go` 190-204, but the valaddress of a join is any
    address and its coins are moved with the bank keeper's `SendCoins`, which does not ask. A staker who names the
    account of x/funders or x/pool joins as usual, and no later message or block pays these coins out
    (`C78_stuck`, `C78_stuck_pool`). Nothing else goes wrong: all promises hold for such histories (`C78_covered`),
    and in x/delegation the coins serve as the reserve of finding 1.
64. **A pool that reaches its end key keeps a bundle that is never decided** (`C79_end_refuted`). The submission that
    finalizes the last bundle also stores the one it carries. From then on `AssertPoolCanRun` fails: votes, submissions
    and skips are refused and the end of the block only takes the next uploader away
    (`logic_end_block_handle_upload_timeout.go` 21-42 drops bundles of disabled pools only). Its uploader is neither paid
    nor refused until the authority updates or disables the pool (`C79_ended`).
65. **Points for not voting while no vote was accepted** (`C79_points_refuted`). A pool without enough delegation (or one
    that is being upgraded) refuses votes, but the time of its stored bundle goes on. In the block in which it can run again
    the upload interval is over, so the bundle is dropped for lack of a quorum and everybody who had not voted
    before the pause gets a point, at the maximum a slash.
66. **Redelegating escapes the slash** (`C80_redelegated_refuted`). Undelegated stake waits in the queue and is hit by every
    slash in that time (`C80_trapped_partial`), but `msg_server_redelegate.go` moves stake at once. An uploader whose
    bundle is being voted down redelegates everything to another staker before the next uploader acts; the slash of a
    fifth then finds no stake, and the delegator loses nothing. The redelegation slots only limit how often this works.
67. **The maximum voting power does not hold when votes are counted** (`C81_alone_refuted`). `AssertPoolCanRun` compares the
    highest delegation with the maximum before `handleNonVoters` removes the members who reach the maximum of points.
    A staker with exactly the allowed half of a pool uploads, the others do not vote, one of them is removed: the staker
    now has more than half and finalizes the bundle alone. At the end of a block this cannot happen (`C81_block_needs`),
    because the votes must be clear before anybody is removed.
68. **A decided vote can be turned by moving stake** (`C83_decided_refuted`). The votes are stored without weights and counted with
    the delegations of the moment of the count. All three members have voted, 5000 of 6000 against the bundle. A delegator of 3
    redelegates 3000 to the uploader, which takes effect at once: the same end of the block finalizes the bundle instead of
    dropping it, slashes the two who voted against it and removes them from the pool. Otherwise the uploader would have been
    slashed and removed. The delegator loses nothing. What it takes is stated exactly in `C83_cost`: half of what is missing to a
    majority if the stake comes from another member.
69. **Rewards can be collected without having been at risk** (`C84_risk_refuted`). A payout is shared by the delegations of its moment.
    After all votes are cast a delegator gives nine times the uploader's stake to the uploader, the next message finalizes the
    bundle, and the delegator gets 81 of 90. A redelegation in the same block pays the rewards out and takes the stake away, before
    any vote that could cost it; each round costs one of the redelegation slots.
70. **Anybody can stop a pool by delegating to its strongest staker** (`C85_outsider_refuted`). Above the maximum voting power the
    whole pool stops, not the staker. With a maximum of one half, which the upgrade to v1.5 sets for every pool, and stakers with
    3000, 2000 and 1000, one unit from somebody who is not in the pool is enough: the votes, the submission of the next bundle and
    the skips are refused, and the stored bundle is not decided (`C79_paused`). In general it takes what is missing to the maximum,
    see `C85_stop`; the stake can be taken away by redelegating, so the delegator risks nothing.
71. **A change of a waiting time applies to those who already wait** (`C86_longer_refuted`, `C86_sooner_refuted`,
    `C86_commission_refuted`). The queues store when something was requested and compare with the parameter in force in each block.
    A longer unbonding time holds back undelegations asked for before it, after the date told in their event; a shorter one frees
    them earlier, together with the stake that could have been slashed. A shorter commission change time lets a commission of 90 %
    that was announced 50 seconds ahead apply after 2, so that the delegators do not have the notice they were given. A longer leave
    time keeps a staker in a pool, and subject to its slashes, after the date at which it was to be out (`C86_leave_refuted`).
72. **A pool nobody works for gets inflation** (`C87_empty_refuted`). The check whether a pool runs compares the stake with the
    minimum and the largest stake with a part of it; with a minimum delegation of 0, which is accepted, both hold when there are
    no stakers. Such a pool takes its part of the inflation from the pools with stakers in every block.

## 6. Assumptions

Every theorem in `Properties_*.v` prints "Closed under the global context".

Histories of the integrated chain are restricted by `cop_ok` in `Chain.v`, which stands for
what the environment can produce (by `C70_history_partial` what concerns coins, percentages and addresses
follows from `ValidateBasic`, and that delegated amounts are below 2^63 from the supply): fields of type uint64 are in range, coins and
percentages have passed `ValidateBasic`, addresses are not empty, block time does not run
backwards, and times, upload intervals and timeouts are below 2^62 seconds; the supply of the
base denom is positive and below 2^63; a pool has fewer than 2^64 data items; other modules
take nothing from the protocol's module accounts (they may put coins in: C78). `genesis` in
`ChainLift.v` stands for the first block of a new chain: no pools, stakers, funders or team
accounts, any balances with a base supply below 2^63, valid parameters. For a join, `cop_ok` also asks that the delegation
of every staker is below 2^63 (it is part of the supply of the base denom).
The parameter for the maximum of points is a uint64. C19 and C23 compare stakes of pools whose
total power is below 2^63 and C18 below 2^64. C30 assumes that what the team module owes is at
most the supply and that the team's own begin blocker did not halt (C44). These totals are part of the supply, but that
cannot be derived: by finding 1 the recorded delegations may exceed the tokens held.

The models of the modules key their maps by accounts and ids, not by bytes. By C48 this is
the same for accounts whose address text has 43 bytes; by finding 26 it is not for longer ones, to
which the other claims therefore do not apply. An account is identified with one text. The SDK
also decodes a text in capital letters to the same account, and the modules would keep records of
that text apart from the others; the models treat the two texts as two accounts.
