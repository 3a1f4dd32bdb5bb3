{"id": "C01", "title": "Delegated principal never exceeds the staker's reported total", "statement": "At every point of every history of delegate, undelegate, redelegate, withdraw, reward payout and slash operations, the sum over all delegators of a staker of the delegation amount reported for each of them is at most the total delegation reported for that staker, so removing any delegator never drives the total below zero. Holds as long as (number of delegators) x (number of slashes) stays below 10^18.", "quantifier": "all stakers, all delegators, all finite interleavings of the delegation operations with arbitrary amounts and arbitrary slash fractions in [0,1]", "why_tests_cant": "rounding drift accumulates over an unbounded number of slashes and re-delegations; a test fixes one short sequence", "anchors": ["x/delegation/keeper/logic_f1distribution.go: f1CreateDelegator, f1RemoveDelegator, f1Slash, f1GetCurrentDelegation, f1IterateConstantDelegationPeriods", "x/delegation/keeper/exported_functions.go: GetDelegationAmount, GetDelegationAmountOfDelegator"]}
{"id": "C02", "title": "The delegation module account always covers all delegated principal", "statement": "In every reachable state the coins held by the delegation module account cover the sum of the total delegations of all stakers plus all rewards that were received but not yet paid out, up to the proved rounding allowance; in particular completing an undelegation or slashing never fails for lack of principal while the accumulated rounding allowance is below one base unit.", "quantifier": "all histories of messages, block boundaries, payouts and slashes", "why_tests_cant": "insolvency shows only after long histories where rounding errors add up across stakers", "anchors": ["x/delegation/keeper/msg_server_delegate.go: Delegate", "x/delegation/keeper/logic_unbonding.go: ProcessDelegatorUnbondingQueue", "x/delegation/keeper/exported_functions.go: PayoutRewards, SlashDelegators"]}
{"id": "C03", "title": "Reward bookkeeping never refers to a missing period", "statement": "No sequence of delegation operations can make reward bookkeeping look up a period entry that was already garbage-collected or compute a negative reward: the emergency-halt branches of the reward distribution are unreachable and every reward computed is non-negative in every denom.", "quantifier": "all stakers, all delegators, all finite histories, all reward multisets", "why_tests_cant": "garbage collection of period entries depends on the order of joins, leaves, withdrawals and slashes; the number of orders is unbounded", "anchors": ["x/delegation/keeper/logic_f1distribution.go: f1StartNewPeriod, f1GetEntryDifference, f1RemoveDelegator, f1WithdrawRewards, f1GetOutstandingRewards"]}
{"id": "C04", "title": "Outstanding-rewards query predicts the withdrawal exactly", "statement": "In every reachable state the rewards reported as outstanding for a delegator equal, coin by coin, the rewards that a withdrawal executed in the same state pays; immediately after the withdrawal the reported outstanding rewards are zero and the reported delegation is unchanged.", "quantifier": "all reachable states, all delegators and stakers", "why_tests_cant": "query and withdrawal are two separate implementations; equality has to hold for every slash/period pattern", "anchors": ["x/delegation/keeper/logic_f1distribution.go: f1GetOutstandingRewards, f1WithdrawRewards"]}
{"id": "C05", "title": "Rewards paid to delegators never exceed rewards received", "statement": "For every staker and every denom the rewards withdrawn by its delegators never exceed the rewards paid out to the staker. (Exact statement is false because of rounding to nearest; the provable bound limits the excess by the accumulated half-unit roundings of the 18-decimal arithmetic.)", "quantifier": "all stakers, denoms and histories", "why_tests_cant": "the excess is a sum of rounding errors over unboundedly many periods", "anchors": ["x/delegation/keeper/logic_f1distribution.go: f1StartNewPeriod, f1WithdrawRewards, safeMulDec, truncateDecCoins"]}
{"id": "C06", "title": "One delegator's actions do not change anyone else's stake or rewards", "statement": "Delegating, undelegating, redelegating or withdrawing by one delegator leaves the reported delegation of every other delegator of the same staker, and of all delegators of other stakers, unchanged, and also exactly what a withdrawal would pay them; their reported outstanding rewards move by at most the one base unit by which the query can be off (C04).", "quantifier": "all reachable states, all pairs of distinct delegators, all operations and amounts", "why_tests_cant": "non-interference quantifies over all pairs and all prior histories", "anchors": ["x/delegation/keeper/logic_delegation.go: performDelegation, performUndelegation, performWithdrawal", "x/delegation/keeper/logic_f1distribution.go"]}
{"id": "C07", "title": "Unbonding is never early, in order, exactly once and not lost", "statement": "An undelegation request is paid out in a block if and only if the block time has reached the request time plus the unbonding time (for it and all earlier requests); requests complete in the order they were made, each exactly once, and a pending request is never dropped. The paid amount is the smaller of the requested amount and the delegation then held.", "quantifier": "all histories of requests, block times and parameter changes", "why_tests_cant": "queue index arithmetic must hold for every interleaving of enqueue and processing over unbounded histories", "anchors": ["x/delegation/keeper/logic_unbonding.go: StartUnbondingDelegator, ProcessDelegatorUnbondingQueue", "x/delegation/keeper/msg_server_undelegate.go: Undelegate"]}
{"id": "C08", "title": "Redelegation rate limit", "statement": "For a fixed limit and cooldown, at most the configured maximum number of redelegations of one account succeed inside any time window of cooldown length, and no two succeed with the same block time.", "quantifier": "all accounts, all message sequences, all non-decreasing block-time sequences, all windows", "why_tests_cant": "sliding-window property over unbounded schedules", "anchors": ["x/delegation/keeper/logic_redelegation.go: consumeRedelegationSpell", "x/delegation/keeper/msg_server_redelegate.go: Redelegate"]}
{"id": "C09", "title": "Redelegation moves exactly the requested amount", "statement": "A successful redelegation of an amount lowers the delegator's delegation to the source by exactly the amount, raises it at the target by exactly the amount, leaves the sum of both stakers' totals unchanged, pays out only the outstanding rewards, and only succeeds when the target is an existing staker that is in at least one pool; otherwise nothing changes.", "quantifier": "all reachable states, all amounts, including source equal to target", "why_tests_cant": "involves two withdrawals, two period changes and slashed (non-integer) balances for every prior history", "anchors": ["x/delegation/keeper/msg_server_redelegate.go: Redelegate", "x/delegation/keeper/logic_delegation.go"]}
{"id": "C10", "title": "Slashing takes the configured fraction from everybody", "statement": "A slash with fraction f moves exactly floor(total*f) from the delegation module to the treasury and lowers the staker's total by the same amount; every delegator (including those with a pending undelegation) keeps (1-f) of their previous balance within less than one base unit up or down; nobody delegating elsewhere or joining later is affected.", "quantifier": "all reachable states, all fractions in [0,1], all delegators", "why_tests_cant": "relation must hold after any number of previous slashes with 18-decimal truncation", "anchors": ["x/delegation/keeper/exported_functions.go: SlashDelegators", "x/delegation/keeper/logic_f1distribution.go: f1Slash, f1IterateConstantDelegationPeriods"]}
{"id": "C11", "title": "Rewards are only accepted when somebody can receive them", "statement": "Paying rewards to a staker fails if the staker has no delegators, so rewards are never accepted and then lost.", "quantifier": "all reachable states", "why_tests_cant": "needs a history in which all delegators left before the payout", "anchors": ["x/delegation/keeper/exported_functions.go: PayoutRewards", "x/delegation/keeper/logic_f1distribution.go: f1StartNewPeriod, f1RemoveDelegator"]}
{"id": "C12", "title": "Pool membership bookkeeping is exact and capped", "statement": "In every reachable state the reported number of stakers of a pool equals the number of stakers registered in it and is at most 50, and a staker is reported active exactly when it is registered in at least one pool.", "quantifier": "all histories of join, leave, kick, slash and pool disabling over all pools", "why_tests_cant": "counters are maintained incrementally by several call paths, including idempotent removals", "anchors": ["x/stakers/keeper/getters_staker.go: AddValaccountToPool, RemoveValaccountFromPool, GetStakerCountOfPool, AddActiveStaker, removeActiveStaker", "x/stakers/keeper/logic_stakers.go: ensureFreeSlot"]}
{"id": "C13", "title": "A protocol-node address speaks for at most one staker of a pool", "statement": "In every reachable state two different stakers of the same pool never share a valaddress, one staker never uses one valaddress in two pools, and no staker uses its own address; hence a valaddress authorises at most one staker in a pool.", "quantifier": "all histories of join/leave/kick over all pools", "why_tests_cant": "uniqueness is enforced only at join time and must survive every later operation", "anchors": ["x/stakers/keeper/msg_server_join_pool.go: JoinPool", "x/stakers/keeper/exported_functions.go: AssertValaccountAuthorized"]}
{"id": "C14", "title": "Commission changes wait the full notice period", "statement": "A staker's commission only changes through a request made by the staker at least the commission-change time earlier; a newer request replaces the pending one and restarts the wait; at most one request per staker is pending; the commission always stays in [0,1].", "quantifier": "all histories of requests, blocks and removals", "why_tests_cant": "requires relating every commission value ever in force to the request history", "anchors": ["x/stakers/keeper/logic_commission.go: orderNewCommissionChange, ProcessCommissionChangeQueue", "x/stakers/keeper/logic_queue.go: processQueue", "x/stakers/types/message_update_commission.go"]}
{"id": "C15", "title": "Voluntary pool leave takes effect exactly after the notice period", "statement": "A staker who requested to leave a pool stays a member (and can be slashed) until the leave time has passed, and leaves in the first block after that; a staker who has not requested to leave during its current membership is never removed by the leave queue.", "quantifier": "all histories of join, leave, kick, rejoin and blocks", "why_tests_cant": "the problem cases need kick-then-rejoin interleavings", "anchors": ["x/stakers/keeper/logic_leave.go: orderLeavePool, ProcessLeavePoolQueue", "x/stakers/keeper/exported_functions.go: LeavePool"]}
{"id": "C16", "title": "Only the weakest staker is displaced from a full pool, by a strictly stronger one", "statement": "Joining a pool succeeds for a registered staker with a fresh valaddress iff the pool is enabled and either has a free slot or the joiner has strictly more delegation than the smallest member; in the latter case exactly one member is removed and no remaining member has less delegation than the removed one.", "quantifier": "all reachable states, all stakers, all delegation distributions", "why_tests_cant": "order statistics over arbitrary distributions with ties", "anchors": ["x/stakers/keeper/logic_stakers.go: ensureFreeSlot, getLowestStaker", "x/stakers/keeper/msg_server_join_pool.go"]}
{"id": "C17", "title": "Commission rewards are always fully backed and can only be claimed once", "statement": "In every reachable state the stakers module account holds at least the sum of all stakers' unclaimed commission rewards in every denom; a claim pays exactly the claimed coins, never more than owed, and reduces what is owed by the same coins.", "quantifier": "all histories of payouts and claims, all denoms", "why_tests_cant": "multi-denom accounting over unbounded histories", "anchors": ["x/stakers/keeper/logic_stakers.go: IncreaseStakerCommissionRewards", "x/stakers/keeper/msg_server_claim_commission_rewards.go"]}
{"id": "C18", "title": "A staker's vote is counted at most once per bundle proposal", "statement": "In every reachable state each address occurs in at most one of the valid, invalid and abstain lists of a proposal and only once; the uploader is counted as valid; the valid, invalid and abstain voting power together never exceed the pool's total voting power.", "quantifier": "all sequences of proposals, votes (including changing abstain), joins, leaves, kicks", "why_tests_cant": "one-vote-per-staker must survive leaving, rejoining and re-voting", "anchors": ["x/bundles/keeper/msg_server_vote_bundle_proposal.go", "x/bundles/keeper/logic_bundles.go: AssertCanVote, GetVoteDistribution, registerBundleProposalFromUploader"]}
{"id": "C19", "title": "Quorum decisions are exclusive and need a majority", "statement": "A proposal is declared valid only if valid voting power is more than half of the pool's total, declared invalid only if invalid voting power is at least half, never both; otherwise there is no quorum. Adding valid power never turns valid into anything else.", "quantifier": "all vote lists and all delegation distributions whose total is below 2^63", "why_tests_cant": "holds for all distributions including ties and zero totals", "anchors": ["x/bundles/keeper/logic_bundles.go: GetVoteDistribution"]}
{"id": "C20", "title": "Finalized bundles form a gapless immutable archive", "statement": "For every pool the finalized bundles have ids 0,1,2,... up to the pool's bundle count, the first starts at the pool's start index, each next bundle starts where the previous ended, every bundle is non-empty and at most the maximum size allowed when it was proposed, and a finalized bundle is never changed later.", "quantifier": "all histories of submissions, votes, skips, timeouts, parameter changes and pool updates", "why_tests_cant": "inductive over the unbounded bundle history including drops and skips", "anchors": ["x/bundles/keeper/logic_bundles.go: finalizeCurrentBundleProposal, registerBundleProposalFromUploader, dropCurrentBundleProposal, AssertCanPropose, validateSubmitBundleArgs", "x/pool/keeper/logic_pool.go: IncrementBundleInformation"]}
{"id": "C21", "title": "Lookup by index finds exactly the bundle containing it", "statement": "For every data index below the pool's current index, looking up the finalized bundle by index returns the unique finalized bundle whose range contains the index; for any other index nothing is found.", "quantifier": "all reachable archives, all indices", "why_tests_cant": "reverse-iterator boundary conditions for every archive shape", "anchors": ["x/bundles/keeper/getters_bundles.go: GetFinalizedBundleByIndex"]}
{"id": "C22", "title": "Bundle reward split conserves money", "statement": "When a bundle is finalized, the coins charged from funders and inflation are split into treasury, storage-cost, commission and delegator parts that sum exactly to the charged coins in every denom; no part is negative; parts exceed neither the total nor what the network fee, storage cost and commission parameters allow.", "quantifier": "all coin multisets, all byte sizes, all parameters in their validated ranges", "why_tests_cant": "decimal rounding in every denom for all values", "anchors": ["x/bundles/keeper/logic_bundles.go: calculatePayouts"]}
{"id": "C23", "title": "Only those who voted against the outcome are slashed", "statement": "When a bundle is decided valid, exactly the invalid voters are vote-slashed; when decided invalid, exactly the valid voters except the uploader are vote-slashed and the uploader is upload-slashed; abstainers are never vote-slashed; each slashed staker is slashed exactly once and removed from the pool.", "quantifier": "all proposals, all vote lists", "why_tests_cant": "set equality over arbitrary voter lists combined with removal side effects", "anchors": ["x/bundles/keeper/logic_bundles.go: tallyBundleProposal, slashDelegatorsAndRemoveStaker"]}
{"id": "C24", "title": "Inactivity points", "statement": "A staker who participates (votes, proposes or skips) has its points reset; a staker who neither voted nor uploaded gains exactly one point per tallied bundle; a staker is timeout-slashed and removed exactly when its points reach the maximum, i.e. only after that many consecutive missed bundles it could have voted on.", "quantifier": "all histories of tallies, votes, skips", "why_tests_cant": "needs histories mixing skips, drops and tallies", "anchors": ["x/bundles/keeper/logic_bundles.go: addPoint, resetPoints, handleNonVoters", "x/bundles/keeper/msg_server_skip_uploader_role.go"]}
{"id": "C25", "title": "Uploader selection picks an eligible staker", "statement": "The next uploader selected by the round robin is always a staker of the pool with positive delegation, somebody is selected whenever such a staker exists, and an excluded staker is not selected when a non-excluded eligible one exists.", "quantifier": "all pools, delegation distributions, stored progress states and exclusion lists", "why_tests_cant": "selection depends on the accumulated state of the round robin", "anchors": ["x/bundles/keeper/logic_round_robin.go: LoadRoundRobinValidatorSet, NextProposer", "x/bundles/keeper/logic_bundles.go: chooseNextUploader, chooseNextUploaderFromList"]}
{"id": "C26", "title": "Uploader selection is proportional to stake", "statement": "With a constant validator set and no exclusions, after any number n of selections every staker has been selected between n*w/W - K and n*w/W + K times for a constant K independent of n; accumulated progress values stay bounded and their sum is conserved.", "quantifier": "all validator sets and weights, all n", "why_tests_cant": "a bound for every n", "anchors": ["x/bundles/keeper/logic_round_robin.go: NextProposer, normalize"]}
{"id": "C27", "title": "Only the designated uploader can submit, and only after the upload interval", "statement": "A bundle submission succeeds only if it is signed by the registered valaddress of the pool's current next uploader, the upload interval has passed since the last proposal update, the pool can run, and the submitted range starts exactly at the end of the pending proposal; a rejected submission changes nothing.", "quantifier": "all states and messages", "why_tests_cant": "a conjunction of guards that every state must respect", "anchors": ["x/bundles/keeper/logic_bundles.go: AssertCanPropose, AssertPoolCanRun", "x/bundles/keeper/msg_server_submit_bundle_proposal.go"]}
{"id": "C28", "title": "Pool status query agrees with what the protocol enforces", "statement": "The pool status reported by the query is active or out-of-funds exactly when the protocol lets the pool run (votes and proposals are not rejected because of the pool's state).", "quantifier": "all pool states, times, delegation distributions, parameters", "why_tests_cant": "two separate implementations of the same decision table", "anchors": ["x/query/keeper/helper.go: GetPoolStatus", "x/bundles/keeper/logic_bundles.go: AssertPoolCanRun"]}
{"id": "C29", "title": "Upload timeout always hands the role on", "statement": "After the end of a block in which the current uploader let upload interval plus timeout pass, the uploader is no longer responsible: another selection happened, the bad uploader got a point, and a pool that can run and has eligible stakers has a next uploader.", "quantifier": "all pool states and times", "why_tests_cant": "end-block logic over all pools, including error paths", "anchors": ["x/bundles/keeper/logic_end_block_handle_upload_timeout.go: HandleUploadTimeout"]}
{"id": "C30", "title": "Block inflation split is complete and never overspends", "statement": "In each block the protocol's share of block inflation is distributed to pools that can run in proportion to their weights, the sum of the transfers equals the protocol share when at least one eligible pool exists, and the rounding remainder goes to an eligible pool.", "quantifier": "all provisions, shares, weights and pool sets", "why_tests_cant": "rounding remainder handling across arbitrary numbers of pools", "anchors": ["x/bundles/abci.go: SplitInflation"]}
{"id": "C31", "title": "Inflation pool charge is bounded by the pool's balance", "statement": "Charging a pool's inflation account for a bundle takes floor(balance*rate), which is between zero and the balance for every rate in [0,1], and leaves the rest in the account.", "quantifier": "all balances below 2^63 and rates", "why_tests_cant": "decimal rounding for all values", "anchors": ["x/pool/keeper/logic_pool.go: ChargeInflationPool"]}
{"id": "C32", "title": "Funding is fully backed", "statement": "In every reachable state the funders module account holds in every denom at least the sum of the remaining amounts of all fundings of all pools.", "quantifier": "all histories of fund, defund, displacement and charging, all denoms", "why_tests_cant": "accounting over unbounded multi-denom histories", "anchors": ["x/funders/keeper/msg_server_fund_pool.go", "x/funders/keeper/msg_server_defund_pool.go", "x/funders/keeper/logic_funders.go: ChargeFundersOfPool, ensureFreeSlot"]}
{"id": "C33", "title": "Funder ledger is exact", "statement": "For every funder and pool, coins deposited = coins remaining + coins charged for bundles + coins returned (by defunding or displacement), in every denom; the total-funded figure equals the coins charged.", "quantifier": "all histories", "why_tests_cant": "inductive accounting identity", "anchors": ["x/funders/types/funders.go: ChargeOneBundle", "x/funders/keeper/msg_server_fund_pool.go", "x/funders/keeper/msg_server_defund_pool.go"]}
{"id": "C34", "title": "A charge never exceeds what the funder agreed to", "statement": "Per finalized bundle a funder is charged, in every denom, at most the agreed amount per bundle and at most the remaining amount, and only in whitelisted coins; funders of other pools are not charged.", "quantifier": "all funding states and whitelists", "why_tests_cant": "all coin multisets", "anchors": ["x/funders/types/funders.go: ChargeOneBundle, CleanAmountsPerBundle", "x/funders/keeper/logic_funders.go: ChargeFundersOfPool"]}
{"id": "C35", "title": "Active funder list is exact and capped", "statement": "The active-funder list of a pool has no duplicates, at most 50 members, and lists exactly the funders with a non-zero remaining amount.", "quantifier": "all histories of funding operations", "why_tests_cant": "list surgery (swap-remove) under all interleavings", "anchors": ["x/funders/types/funders.go: SetActive, SetInactive", "x/funders/keeper/logic_funders.go: ensureFreeSlot"]}
{"id": "C36", "title": "A funder can always exit completely", "statement": "A funder with a non-zero funding can always withdraw everything left in one message, whatever the current whitelist and minimums are.", "quantifier": "all reachable states and all (validated) parameter sets", "why_tests_cant": "quantifies over all parameter changes after funding", "anchors": ["x/funders/keeper/msg_server_defund_pool.go: DefundPool", "x/funders/keeper/logic_funders.go: ensureParamsCompatibility"]}
{"id": "C37", "title": "A funder is displaced only to make room for a larger newcomer", "statement": "A funding is displaced only when all 50 slots are taken and a funder without a slot funds more; the displaced funding is the one with the lowest score and its owner gets back everything that was left.", "quantifier": "all reachable states with full slots", "why_tests_cant": "needs 50 funders and every score distribution", "anchors": ["x/funders/keeper/logic_funders.go: ensureFreeSlot, GetLowestFunding"]}
{"id": "C38", "title": "Accepted fundings satisfy the published minimums", "statement": "After a successful fund or partial defund every remaining coin is whitelisted, has an amount per bundle, meets the minimum amount and minimum amount per bundle, and covers the minimum number of bundles; conversely every funding meeting these published conditions is accepted.", "quantifier": "all messages and parameter sets", "why_tests_cant": "all coin multisets and whitelists, including zero minimums", "anchors": ["x/funders/keeper/logic_funders.go: ensureParamsCompatibility"]}
{"id": "C39", "title": "Runtime upgrades are applied on schedule, once, and can be cancelled", "statement": "A scheduled runtime upgrade changes the protocol version and binaries of exactly the pools of that runtime without another pending upgrade, not before the scheduled time, and at the first block end at or after it; it is cleared after its duration; cancelling removes it; nothing else changes version or binaries.", "quantifier": "all histories of schedule, cancel, create and block ends", "why_tests_cant": "time-driven state machine over unbounded histories", "anchors": ["x/pool/keeper/logic_end_block_handle_pool_upgrades.go", "x/pool/keeper/msg_server_schedule_runtime_upgrade.go", "x/pool/keeper/msg_server_cancel_runtime_upgrade.go"]}
{"id": "C40", "title": "Pool ids are never reused and disabling empties a pool", "statement": "Pools get consecutive ids starting at zero and are never removed; disabling a pool removes all its stakers and moves its whole balance to the treasury; while disabled nobody can join and no bundle is accepted; only the governance authority can create, change, enable or disable pools.", "quantifier": "all histories and all callers", "why_tests_cant": "cross-module effect over every membership state", "anchors": ["x/pool/keeper/msg_server_disable_pool.go", "x/pool/keeper/getters_pool.go: AppendPool", "x/pool/keeper/msg_server_create_pool.go", "x/stakers/keeper/msg_server_join_pool.go"]}
{"id": "C41", "title": "Team vesting curves are monotone and bounded", "statement": "For every team vesting account, vested and unlocked amounts never decrease over time, unlocked never exceeds vested, vested never exceeds the maximum vesting amount, which never exceeds the allocation; nothing vests before the cliff and nothing unlocks before the lock-up date.", "quantifier": "all accounts with allocation below 2^63, all times, all clawback dates", "why_tests_cant": "all points in time; decimal rounding for all values", "anchors": ["x/team/keeper/logic_team.go: getVestedAmount, getUnlockedAmount, getVestingMaxAmount, GetVestingStatus"]}
{"id": "C42", "title": "Team claims never exceed what is unlocked, even across clawbacks", "statement": "In every reachable history an account's total claimed amount never exceeds its unlocked amount at the current time, and a clawback never makes the claimed amount exceed the vested amount; claims can only be made by the two team authorities.", "quantifier": "all histories of claims, clawbacks and time steps of accounts with allocation below 2^63", "why_tests_cant": "interaction of repeated clawbacks and claims at all times", "anchors": ["x/team/keeper/msg_server_claim_unlocked.go", "x/team/keeper/msg_server_clawback.go"]}
{"id": "C43", "title": "Team allocation cap", "statement": "The sum of the maximum vesting amounts of all team accounts never exceeds the fixed team allocation.", "quantifier": "all histories of account creation and clawback, all amounts", "why_tests_cant": "needs clawback/un-clawback interleavings or extreme amounts", "anchors": ["x/team/keeper/msg_server_create_team_vesting_account.go", "x/team/keeper/msg_server_clawback.go", "x/team/keeper/logic_team.go: GetIssuedTeamAllocation"]}
{"id": "C44", "title": "Team inflation rewards are conserved and backed", "statement": "Each block the coins moved to the team module equal the increase of recorded account plus authority rewards; claimed rewards never exceed recorded rewards; the team module balance always equals or exceeds the required balance derived from allocation, claims and rewards.", "quantifier": "all histories within the allocation cap", "why_tests_cant": "rounded shares over arbitrary account sets and unbounded blocks", "anchors": ["x/team/abci.go: DistributeTeamInflation", "x/team/keeper/logic_team.go: GetTeamInfo", "x/team/keeper/msg_server_claim_account_rewards.go", "x/team/keeper/msg_server_claim_authority_rewards.go"]}
{"id": "C45", "title": "Consensus minimum gas price is enforced", "statement": "After the first block every delivered transaction pays, in the bond denom, at least ceil(minimum gas price x gas limit); a node-local minimum price can only be checked in addition in the mempool.", "quantifier": "all fees, gas limits below 2^63, prices and denoms", "why_tests_cant": "all multi-denom fee combinations", "anchors": ["x/global/utils.go: BuildTxFeeChecker", "x/global/ante.go: DeductFeeDecorator"]}
{"id": "C46", "title": "Fee burning takes the configured ratio and never more than collected", "statement": "At each block end, for every denom of collected fees, floor(fees x burn ratio) is burned (total supply and the fee collector shrink by the same amount) and the rest stays; nothing is burned in block 1 or with ratio zero.", "quantifier": "all fee multisets and ratios in [0,1]", "why_tests_cant": "decimal rounding for all values and denoms", "anchors": ["x/global/abci.go: EndBlocker"]}
{"id": "C47", "title": "Fee refunds go to whoever paid and never exceed the fee", "statement": "A refundable single-message transaction gets back floor(fee x fraction) of its fee, paid to the account that paid it; other transactions get no refund; using a fee grant costs the grant the fee exactly once.", "quantifier": "all transactions, fee payers, grants and refund configurations", "why_tests_cant": "fee-grant interaction between ante and post handling", "anchors": ["x/global/post.go: RefundFeeDecorator.PostHandle", "x/global/utils.go: GetFeeAccount"]}
{"id": "C48", "title": "Store keys never collide", "statement": "Distinct logical records are stored under distinct keys: the composite byte keys built from addresses and ids are injective within each prefix, keys of different prefixes never coincide, and iterating by an address or id prefix returns exactly the records of that address or id; numeric keys iterate in numeric order.", "quantifier": "all ids below 2^64 and all addresses of the fixed bech32 length", "why_tests_cant": "injectivity over the whole key space", "anchors": ["util/logic.go: GetByteKey", "x/delegation/types/keys.go", "x/stakers/types/keys.go", "x/bundles/types/keys.go", "x/funders/types/keys.go", "x/pool/types/keys.go"]}
{"id": "C49", "title": "Paginated staker queries return every staker exactly once", "statement": "Walking through all pages of the staker queries with any page size returns every staker exactly once and never fails.", "quantifier": "all staker counts and page sizes", "why_tests_cant": "all sizes and offsets", "anchors": ["x/delegation/keeper/getters_index_stakers.go: arrayPagination, arrayPaginationAccumulator"]}
{"id": "C50", "title": "Exported genesis is accepted and faithful", "statement": "The genesis exported from any reachable state passes its own validation and re-importing it restores all queue states, counters, memberships, delegations and fundings; genesis validation rejects duplicate records.", "quantifier": "all reachable states", "why_tests_cant": "reachability plus export/validate/import round trip", "anchors": ["x/stakers/genesis.go", "x/stakers/types/genesis.go: Validate", "x/funders/types/genesis.go: Validate", "x/delegation/genesis.go", "x/bundles/genesis.go"]}
{"id": "C51", "title": "Governance-only messages are governance-only", "statement": "Parameter updates and pool administration messages from any sender other than the governance authority are rejected without changing any state; updating parameters changes only the fields named in the payload.", "quantifier": "all senders, payloads and states", "why_tests_cant": "all senders", "anchors": ["x/*/keeper/msg_server_update_params.go: UpdateParams", "x/pool/keeper/msg_server_create_pool.go"]}
{"id": "C52", "title": "Governance voting power of protocol stakers is consistent", "statement": "The total bonded protocol tokens reported to governance equal the sum of the voting powers reported for the active protocol validators, and the votes attributable to a validator's delegators never exceed that validator's power.", "quantifier": "all reachable states", "why_tests_cant": "sums over all stakers and delegators with slashed balances", "anchors": ["x/stakers/keeper/exported_functions.go: TotalBondedTokens, GetActiveValidators, GetDelegations"]}
{"id": "C53", "title": "A payout is shared in proportion to the delegations", "statement": "When a staker's delegators are paid R of a coin, the claimable rewards of each delegator of that staker grow by R times their delegation over the staker's total delegation, neither more nor less than rounding allows (about one base unit).", "quantifier": "all reachable states, payouts, coins, stakers and delegators", "why_tests_cant": "a two-sided bound over all histories of joins, slashes and earlier payouts, with several rounding steps", "anchors": ["x/delegation/keeper/logic_f1distribution.go: f1StartNewPeriod, f1GetOutstandingRewards", "x/delegation/keeper/exported_functions.go: PayoutRewards"]}
{"id": "C54", "title": "Money moves only where a message says, and none is made or lost", "statement": "For every message, begin block and end block: the supply of every denom changes only by what is minted for the block and what is burned of the fees; an account loses or gains money only along the transfers that message may make (delegating, paying rewards, commission, joining with a valaddress transfer, funding, defunding, team claims, bundle payouts of the same pool, slashes to the treasury, inflation split, unbonding); no user other than the signer loses anything, and the signer loses at most the amount named in the message.", "quantifier": "all reachable states, all messages and blocks, all accounts and denoms", "why_tests_cant": "a frame and conservation statement over every account in every reachable state", "anchors": ["x/*/keeper/msg_server_*.go", "x/bundles/keeper/logic_bundles.go", "x/bundles/abci.go", "x/team/abci.go", "x/global/abci.go", "util/logic_bank.go"]}
{"id": "C55", "title": "A finalized bundle is paid exactly once and in full", "statement": "When a submission or a skip finalizes the open bundle of a pool, then and only then the pool's fundings, x/funders and the pool's account pay: the fundings shrink by the amount taken from x/funders, the pool's account pays the configured rate of its balance (rounded down), and the sum is split into the network fee (treasury), storage, commission (both on x/stakers and added to the uploader's claimable rewards) and the delegators' part; the parts add up to the sum, nothing else moves but slashed stake, and the account of x/pool that passes the money on is left as it was. If nothing is finalized nothing is paid. The same holds for every pool's account at the end of every block.", "quantifier": "all reachable states, all submissions, skips and ends of blocks, all denoms and accounts", "why_tests_cant": "needs every reachable combination of fundings, slashes of voters in the same step, roundings and pools; in particular that no transfer in the middle of the payout can fail", "anchors": ["x/bundles/keeper/logic_bundles.go: tallyBundleProposal, calculatePayouts", "x/bundles/keeper/msg_server_submit_bundle_proposal.go", "x/bundles/keeper/msg_server_skip_uploader_role.go", "x/bundles/keeper/logic_end_block_handle_upload_timeout.go", "x/funders/keeper/logic_funders.go: ChargeFundersOfPool", "x/pool/keeper/logic_pool.go: ChargeInflationPool"]}
{"id": "C56", "title": "Surcharged message types cost their surcharge", "statement": "Every message of a type with a gas adjustment that a transaction runs takes the configured extra gas (the first entry for its type) from the transaction's gas limit before anything runs; a transaction whose surcharges exceed its gas limit is rejected without effect.", "quantifier": "all transactions, message lists (including messages carried by others) and adjustment lists", "why_tests_cant": "arbitrary message lists, duplicate configuration entries and nested messages", "anchors": ["x/global/ante.go: GasAdjustmentDecorator.AnteHandle", "app/ante.go: NewAnteHandler"]}
{"id": "C57", "title": "Accounts of every kind are found again", "statement": "A staker's pools, a delegator's stakers and a delegator's redelegation cooldowns are found for every account that can stake or delegate, whatever the length of its address: an account whose address has 32 bytes (a group policy, an interchain account) is treated like one whose address has 20.", "quantifier": "all accounts with valid bech32 addresses, all stores", "why_tests_cant": "tests use addresses of one length only", "anchors": ["x/stakers/keeper/getters_valaccount.go: GetValaccountsFromStaker", "x/stakers/keeper/msg_server_join_pool.go: JoinPool", "x/delegation/keeper/getters_delegator.go: GetStakersByDelegator", "x/delegation/keeper/getters_redelegation.go: GetAllRedelegationCooldownEntries", "x/delegation/keeper/msg_server_redelegate.go: Redelegate"]}
{"id": "C58", "title": "Paginated finalized bundles are the archive", "statement": "Walking through the finalized bundles of a pool by page keys or by offsets, oldest or newest first, with any page size, returns every bundle exactly once in the order of their ids, and the reported total is the number of finalized bundles.", "quantifier": "all chain histories, pools, page sizes, offsets and both directions", "why_tests_cant": "tests page through archives of a few bundles only", "anchors": ["x/bundles/keeper/getters_bundles.go: GetPaginatedFinalizedBundleQuery", "x/query/keeper/grpc_query_finalized_bundles.go: FinalizedBundlesQuery"]}
{"id": "C59", "title": "Parameters in force are always valid and updates are reported truthfully", "statement": "At all times the parameters of every module pass that module's own validation, whatever updates governance has made; the event of an update reports the parameters before and after it.", "quantifier": "all sequences of updates with arbitrary payloads, interleaved with all other messages and blocks", "why_tests_cant": "the payload is validated on the default parameters and applied to the current ones, so validity depends on the whole sequence of updates", "anchors": ["x/*/types/msgs.go: MsgUpdateParams.ValidateBasic", "x/*/keeper/msg_server_update_params.go: UpdateParams", "x/*/types/params.go: Validate"]}
{"id": "C60", "title": "Account assets are what the account can get", "statement": "AccountAssets reports of an account: its balance, its delegation (own and in total), the amount it is unbonding, the rewards it can withdraw and the funding it can take back. Withdrawing from every staker pays the reported rewards, defunding everything pays the reported funding, and the pending requests pay the reported unbonding amount.", "quantifier": "all chain histories, all accounts", "why_tests_cant": "the report sums over stores that all messages, slashes and payouts write; a test compares it for one prepared state", "anchors": ["x/query/keeper/grpc_account_assets.go: AccountAssets", "x/delegation/keeper/exported_functions.go: GetOutstandingRewards", "x/delegation/keeper/msg_server_undelegate.go: Undelegate"]}
{"id": "C61", "title": "Reported redelegation slots are the usable ones", "statement": "AccountRedelegation lists exactly the redelegations of the account that still occupy a slot, with the date at which each is freed; the reported number of free slots is the number of redelegations the account can still make.", "quantifier": "all chain histories and parameter changes, all accounts", "why_tests_cant": "records expire lazily, by block time and by a parameter governance changes", "anchors": ["x/query/keeper/grpc_account_redelegation.go: AccountRedelegation", "x/delegation/keeper/logic_redelegation.go: consumeRedelegationSpell", "x/delegation/keeper/getters_redelegation.go: GetRedelegationCooldownEntries"]}
{"id": "C62", "title": "Answers to protocol nodes agree with what the chain accepts", "statement": "CanVote says which votes the chain accepts from a node in this block, CanPropose whether it accepts a proposal (or a skip) of the node, CanValidate for which staker the node may act.", "quantifier": "all chain histories, all pools, stakers, addresses, storage ids and indices", "why_tests_cant": "queries and messages are separate code paths; agreement is about all states", "anchors": ["x/query/keeper/grpc_query_can_vote.go: CanVote", "x/query/keeper/grpc_query_can_propose.go: CanPropose", "x/query/keeper/grpc_query_can_validate.go: CanValidate", "x/bundles/keeper/logic_bundles.go: AssertCanVote, AssertCanPropose"]}
{"id": "C63", "title": "Paginated delegations are complete and truthful", "statement": "Walking through the delegators of a staker, the stakers of a delegator or the unbonding requests of an account by page keys or offsets, with any page size, returns each exactly once with its current amount and the rewards a withdrawal would pay, and the reported totals are the real ones.", "quantifier": "all chain histories, stakers, accounts, page sizes and offsets", "why_tests_cant": "tests page through a few records of one prepared state", "anchors": ["x/query/keeper/grpc_delegation_delegators_by_staker.go: DelegatorsByStaker", "x/query/keeper/grpc_delegation_stakers_by_delegator.go: StakersByDelegator", "x/query/keeper/grpc_account_delegation_unbondings.go: AccountDelegationUnbondings"]}
{"id": "C64", "title": "Users cannot stop the chain", "statement": "No message of any account, and no end of a block, sets one of the flags by which the chain stops (PanicHalt or a panic in the block logic): bundles are always paid out or refused as a whole, funders' coins always cover their fundings, no entry of the reward distribution is ever missing.", "quantifier": "all chain histories from any valid genesis, all messages of all accounts", "why_tests_cant": "a chain halt needs an unforeseen state; tests show its absence only for the states they build", "anchors": ["util/logic_error.go: PanicHalt", "x/bundles/keeper/logic_end_block_handle_upload_timeout.go: HandleUploadTimeout", "x/bundles/keeper/logic_bundles.go: tallyBundleProposal", "x/pool/keeper/logic_pool.go: ChargeInflationPool", "x/global/abci.go: EndBlocker", "x/funders/keeper/logic_funders.go: ChargeFundersOfPool"]}
{"id": "C65", "title": "Queries about funders and fundings are complete and truthful", "statement": "Walking through the fundings of a funder or of a pool (all, active or inactive) or through the funders returns each exactly once: the fundings are those made by an accepted message, with what is left, what was used and the score that decides about slots; the statistics of a funder are the sums over the pools they ever funded. The list of an account's funded pools never fails, names the pools with coins left, and the reported total of a pool is what all its funders have left.", "quantifier": "all chain histories, funders, pools, status filters, search filters, page sizes and offsets", "why_tests_cant": "tests query a few fundings of one prepared state", "anchors": ["x/query/keeper/grpc_query_fundings.go: FundingsByFunder, FundingsByPool, parseFundings", "x/query/keeper/grpc_query_funders.go: Funder, Funders, parseFunder, filterFundingsOnStatus", "x/query/keeper/grpc_account_funded.go: AccountFundedList", "x/funders/keeper/getters_funding.go: GetPaginatedFundingQuery, GetFundingsOfFunder", "x/funders/keeper/getters_funder.go: GetPaginatedFundersQuery", "x/funders/types/funders.go: GetScore, IsActive"]}
{"id": "C66", "title": "Queries about pools, their stakers and the current vote are complete and truthful", "statement": "Walking through the pools returns each pool that meets the filters exactly once, with its stakers, delegation, balance and all fundings ever made to it; no such query fails. The record of a staker names each pool they take part in once, the pending commission change if there is one, their delegators' number and what they have unbonding. The stakers of a pool are its members. The current vote shows the delegation of the members that voted each way out of that of all members.", "quantifier": "all chain histories, pools, stakers, filters, page sizes and offsets", "why_tests_cant": "tests query a few pools and stakers of one prepared state", "anchors": ["x/query/keeper/grpc_query_pool.go: Pools, Pool, parsePoolResponse", "x/pool/keeper/getters_pool.go: GetPaginatedPoolsQuery", "x/query/keeper/helper.go: GetFullStaker, GetPoolStatus", "x/query/keeper/grpc_query_staker.go: Staker", "x/query/keeper/grpc_query_stakers_by_pool.go: StakersByPool", "x/query/keeper/grpc_current_vote_status.go: CurrentVoteStatus", "x/bundles/keeper/logic_bundles.go: GetVoteDistribution"]}
{"id": "C67", "title": "The upgrade to v1.5.0 keeps everybody's money and every pool's data", "statement": "The upgrade handler of v1.5.0 rewrites the records of fundings, delegations, stakers and pools from plain amounts to coins. Afterwards every funding, commission reward and pending delegation reward is the same amount of the base denom, under the same key and in no other denom; all balances, delegations, queues, bundles and the data of every pool are the same; it does not panic. What it produces is a state the new program could have reached by itself. Pools go on running, keep their share of the inflation, and pending proposals to create pools mean what they meant.", "quantifier": "all states in the records of v1.4, all runtimes to upgrade, all histories", "why_tests_cant": "there is no test of the upgrade handler, and a test would migrate one prepared state with small amounts and equal weights", "anchors": ["app/upgrades/v1_5/upgrade.go: migrateFundersModule, migrateDelegationModule, migrateStakersModule, migrateBundlesModule, migratePoolModule, migrateOldGovProposals, upgradeRuntimes", "app/upgrades/v1_5/v1_4_types"]}
{"id": "C68", "title": "The uploader role goes to a member that can act", "statement": "Whenever the role of the next uploader of a pool changes hands, through a submission, a skip, a claim or the end of a block, it goes to a staker who is then a member of the pool with a positive stake, and to nobody only if there is none. After a finalized bundle it goes to one of those who voted for it, after a skip to somebody else, if such a staker can act. A claim is accepted only from a member while nobody has the role. Nothing else changes the role of any pool.", "quantifier": "all histories, pools, submissions, skips and claims", "why_tests_cant": "the choice depends on the stored progress of all members, on who is slashed and removed by the same tally and on the order of the addresses; tests use a few stakers with equal stakes", "anchors": ["x/bundles/keeper/msg_server_submit_bundle_proposal.go:SubmitBundleProposal", "x/bundles/keeper/msg_server_skip_uploader_role.go:SkipUploaderRole", "x/bundles/keeper/msg_server_claim_uploader_role.go:ClaimUploaderRole", "x/bundles/keeper/logic_bundles.go:chooseNextUploader, chooseNextUploaderFromList, dropCurrentBundleProposal", "x/bundles/keeper/logic_end_block_handle_upload_timeout.go"]}
{"id": "C69", "title": "Team vesting queries tell what can be claimed and when", "statement": "The vesting plan and status shown for a team account, now or for any given time, are those of its allocation, commencement and clawback date: vested, unlocked, locked and unvested amounts are never negative, add up to the maximum, and the maximum and the clawed back amount add up to the allocation; before and after the dates of the plan nothing or everything has vested and unlocked. What is shown for a later time is what is shown then, unless the account is claimed from or clawed back meanwhile. An authority can claim exactly up to the amounts shown as claimable, create accounts exactly up to the allocation shown as available, and the module account holds what the summary says it must. The list shows every account once.", "quantifier": "all histories of the module, accounts, query times, claimed amounts", "why_tests_cant": "amounts are truncated decimals of a piecewise linear curve computed with wrapping uint64; tests check a handful of dates", "anchors": ["x/team/keeper/grpc_query_vesting_status_by_time.go:TeamVestingStatusByTime", "x/team/keeper/grpc_team_vesting_status.go:TeamVestingStatus", "x/team/keeper/grpc_team_info.go:TeamInfo", "x/team/keeper/grpc_team_vesting_account.go", "x/team/keeper/logic_team.go:GetVestingStatus, GetVestingPlan, GetTeamInfo"]}
{"id": "C70", "title": "Malformed messages change nothing and only addresses get into the state", "statement": "A message whose sender is no address, whose coins are missing, not positive, repeated, unordered or of an invalid denom, whose commission is not between zero and one, or whose profile exceeds its limits is rejected and changes nothing; exactly the well-formed messages reach a module. A message that is accepted names only valid addresses, also in fields that are not checked in advance. Stakers, nodes, delegators, unbondings, funders and fundings are only ever stored under valid addresses, so that money owed to them can be paid. Every history of raw messages satisfies what the other properties assume about messages.", "quantifier": "all raw messages, all histories of messages and blocks, all notions of address, denom and string order", "why_tests_cant": "the checks are spread over thirty ValidateBasic functions with gaps that the handlers fill implicitly; tests send a few malformed values per message", "anchors": ["x/delegation/types/message_redelegate.go:ValidateBasic", "x/stakers/types/message_create_staker.go:ValidateBasic", "x/funders/types/message_fund_pool.go:ValidateBasic", "x/pool/types/msgs.go:ValidateBasic", "util/validate.go:ValidatePercentage", "util/logic_bank.go:TransferFromModuleToAddress"]}
{"id": "C71", "title": "A profile is what its owner last set", "statement": "Exactly the stakers and the funders have a profile. It is the one in the last accepted message of its owner that sets it (a new staker's is empty), nobody else and no other message changes it, and setting it changes nothing else. The fields of a staker's profile have at most 255 bytes and the identity is empty or a key of sixteen hexadecimal digits; the name of a funder is not empty.", "quantifier": "all histories, stakers, funders and profiles", "why_tests_cant": "tests check single updates; who can change a profile over all histories of all messages is not tested", "anchors": ["x/stakers/keeper/msg_server_update_metadata.go:UpdateMetadata", "x/stakers/types/message_update_metadata.go:ValidateBasic", "x/funders/keeper/msg_server_update_funder.go:UpdateFunder", "x/funders/keeper/msg_server_create_funder.go:CreateFunder"]}
{"id": "C72", "title": "An accepted message does what it says and nothing else", "statement": "An accepted message changes exactly what it names, by the amount in it. Delegating, redelegating, undelegating and withdrawing change only the sender's own delegation to the named stakers (undelegating queues the amount and keeps the delegation until it is due); creating a staker, ordering a commission, claiming commission, joining and leaving change only the sender's own record or membership (joining a full pool removes the member with the least delegation); funding and defunding change only the sender's own funding (funding a full pool may return the funding of one other funder); team messages change one account; votes and claims of the uploader role are signed by the staker's node and change one pool's proposal; pool messages come from governance and change the pools they name. Nobody but the sender pays, and the sender pays at most the amount in the message.", "quantifier": "all histories of raw messages and blocks, all messages accepted after them, all users, stakers, pools and denoms", "why_tests_cant": "tests look at the fields they expect to change; that nothing else changes, for anybody, after any history, is a statement about the whole state", "anchors": ["x/delegation/keeper/msg_server_delegate.go:Delegate", "x/delegation/keeper/msg_server_redelegate.go:Redelegate", "x/stakers/keeper/msg_server_join_pool.go:JoinPool", "x/funders/keeper/msg_server_fund_pool.go:FundPool", "x/funders/keeper/msg_server_defund_pool.go:DefundPool", "x/team/keeper/msg_server_claim_unlocked.go:ClaimUnlocked", "x/bundles/keeper/msg_server_vote_bundle_proposal.go:VoteBundleProposal", "x/pool/keeper/msg_server_update_pool.go:UpdatePool"]}
{"id": "C73", "title": "Whoever reads the events knows the state", "statement": "A reader who sees nothing but the published events, from genesis on, knows at any time: which staker is in which pool, with which node and how many points; what is delegated to every staker; commissions and claimable commission rewards; the pending bundle of every pool with its votes, all finalized bundles and the progress of every pool; the settings of every pool; the accounts of the team and what they have claimed; what the funders of every pool have left; and how the protocol has changed the balance of every user.", "quantifier": "all histories of messages and blocks from all genesis states, all stakers, pools, accounts and denoms", "why_tests_cant": "tests of events look for one event after one call; that the events of all code paths together (tallies, slashes, timeouts, displaced members, queues at the start of a block) add up to what is stored is a statement about all histories", "anchors": ["x/bundles/keeper/logic_bundles.go:finalizeCurrentBundleProposal", "x/bundles/keeper/logic_bundles.go:handleNonVoters", "x/bundles/keeper/logic_end_block_handle_upload_timeout.go:HandleUploadTimeout", "x/delegation/keeper/logic_delegation.go:performDelegation", "x/delegation/keeper/logic_unbonding.go:ProcessDelegatorUnbondingQueue", "x/stakers/keeper/exported_functions.go:LeavePool", "x/funders/keeper/logic_funders.go:ensureFreeSlot", "x/pool/keeper/msg_server_update_pool.go:UpdatePool", "x/team/keeper/msg_server_claim_unlocked.go:ClaimUnlocked"]}
{"id": "C74", "title": "New stakers queue at the end", "statement": "A staker who has just joined a pool is not selected as uploader as long as another staker who was in the pool before can be selected, however much more delegation the new one has.", "quantifier": "all sets of stakers and delegations, all stored progress values, all exclusions and voters", "why_tests_cant": "the tests join stakers with a few chosen delegations; whether the starting value of -1.125 times the total puts a newcomer behind the others depends on all progress values, delegations and exclusions", "anchors": ["x/bundles/keeper/logic_round_robin.go:LoadRoundRobinValidatorSet", "x/bundles/keeper/logic_round_robin.go:NextProposer"]}
{"id": "C75", "title": "The events add up to the books of every account", "statement": "Whoever starts with the balances of the genesis and adds up the amounts in the published events has the balance of every user and of every module account: what a delegation, unbonding, withdrawal, slash, funding, defunding, finalized bundle, commission claim, join or team claim says it has moved is what was moved, between exactly the accounts it implies, and nothing else was moved.", "quantifier": "all histories, all accounts, all denoms, every single message and block", "why_tests_cant": "tests check balances or events after single scripted messages, mostly not both; that the sums of all payouts, slashes and roundings in every event equal what the bank has moved holds for all interleavings or not at all", "anchors": ["x/bundles/keeper/logic_bundles.go:FinalizeCurrentBundleProposal", "x/bundles/keeper/logic_bundles.go:calculatePayouts", "x/delegation/keeper/logic_slashing.go", "x/delegation/keeper/logic_unbonding.go", "x/funders/keeper/msg_server_fund_pool.go", "x/funders/keeper/msg_server_defund_pool.go", "x/pool/keeper/msg_server_disable_pool.go", "x/team/keeper"]}
{"id": "C76", "title": "Every event says what it seems to say", "statement": "The fields of a single event describe the step that publishes it. The start of an undelegation names the amount that is asked for and the date at which it is paid, and payouts answer the requests in their order with at most this amount. The status of a judged bundle follows from the counts in its event, the counts are the stakes of the pool members who voted for, against or abstained, the uploader is the one of the bundle and the next uploader the one that is stored. A slash has the true reason. A skip names the uploader who skipped, the new one and the number of finalized bundles, and is never silent. The pools listed by a planned or cancelled upgrade are exactly those that get or lose a plan. A clawback names what the member loses. The role, a new staker, a new funder and the amounts per bundle of a funding are stored as published, and the event that a pool is out of funds appears exactly when its last funder is used up.", "quantifier": "all histories, every message and block, every event, field by field", "why_tests_cant": "tests compare events with literals after scripted messages, if at all; that the counts, lists, reasons and dates in an event agree with the state before and after holds for all votes, slashes and parameters or not at all", "anchors": ["x/bundles/keeper/logic_bundles.go", "x/bundles/keeper/logic_end_block_handle_upload_timeout.go", "x/bundles/keeper/msg_server_skip_uploader_role.go", "x/delegation/keeper/msg_server_undelegate.go", "x/delegation/keeper/logic_unbonding.go", "x/pool/keeper/msg_server_schedule_runtime_upgrade.go", "x/pool/keeper/msg_server_cancel_runtime_upgrade.go", "x/team/keeper/msg_server_clawback.go", "x/funders/keeper/logic_funders.go", "x/funders/keeper/msg_server_fund_pool.go"]}
{"id": "C77", "title": "The modules keep their promises inside the running chain", "statement": "Whatever messages reach whichever modules in whatever order, with blocks in between: the money of the funders is in the module, a funder can take back everything that is left at any time and is only displaced by another funder when all 50 places are taken, with a refund; commission is backed, claimable exactly up to what is owed, and paid; membership counters are right and at most 50, node addresses are not shared, and a staker can join exactly if the pool is enabled and there is a free place or a weaker member; a delegator's outstanding rewards are what a withdrawal pays, up to one unit, and no message of others changes them; every block pays exactly the unbonding requests that are due, oldest first; members of the team never claim more than is unlocked, and x/team holds what it owes and pays every claim that is due.", "quantifier": "all genesis states, all histories of messages to all modules and blocks", "why_tests_cant": "tests run one module's messages on a prepared chain; that no sequence of messages of other modules, of block hooks, slashes, payouts and inflation breaks the promise of a module is a statement about all interleavings", "anchors": ["app/app.go", "x/funders/keeper/logic_funders.go", "x/funders/keeper/msg_server_defund_pool.go", "x/stakers/keeper/logic_stakers.go", "x/stakers/keeper/msg_server_join_pool.go", "x/stakers/keeper/msg_server_claim_commission_rewards.go", "x/delegation/keeper/logic_f1distribution.go", "x/delegation/keeper/logic_unbonding.go", "x/team/keeper/logic_team.go", "x/team/keeper/msg_server_claim_unlocked.go", "x/team/abci.go"]}
{"id": "C78", "title": "Coins cannot be lost in the protocol's own accounts", "statement": "The accounts of the modules cannot be paid by users except through the messages that record the payment: what the account of x/funders holds is what the funders can take back. A join message pays its coins to the protocol node and otherwise only joins, whatever address it names.", "quantifier": "all genesis states, all histories of messages to all modules and blocks with joins naming any account, all continuations", "why_tests_cant": "tests send the coins of a join to a fresh user account; whether some account can be named so that coins become unreachable for ever is a statement about all addresses and all later histories", "anchors": ["x/stakers/keeper/msg_server_join_pool.go", "x/stakers/types/message_join_pool.go", "util/logic_bank.go", "app/app_config.go", "x/funders/keeper/logic_funders.go"]}
{"id": "C79", "title": "A stored bundle does not stay open", "statement": "Every bundle proposal that was accepted is decided in time: at the end of the first block after the upload interval it is dropped unless a majority is for it or at least half against it; with a clear result it is finalized or dropped at the latest at the end of the first block after the upload timeout, even if the next uploader never acts. A majority of the stake for it suffices to have it finalized. Nobody gets a point for not voting on a bundle they could not vote on.", "quantifier": "all genesis states, all histories of messages to all modules and blocks, all pools, all distributions of stake and votes", "why_tests_cant": "tests run a few rounds with fixed votes; that no history leaves a bundle open, also when stakers are removed in the count, when the pool stops and when it ends, is a statement about all histories", "anchors": ["x/bundles/keeper/logic_end_block_handle_upload_timeout.go", "x/bundles/keeper/logic_bundles.go", "x/bundles/keeper/msg_server_submit_bundle_proposal.go"]}
{"id": "C80", "title": "The stake behind a vote cannot be withdrawn from the slash", "statement": "Stake that was with a staker when the staker voted on or uploaded a bundle is cut by the slash if the bundle is decided against that vote within the unbonding time, whatever the delegator does in between: undelegating starts a waiting time in which every slash of the staker still hits the stake, and no other message takes it away.", "quantifier": "all genesis states, all histories before and after the vote, all stakers, delegators and pools, all sequences of slashes", "why_tests_cant": "tests undelegate once and slash once; that no combination of messages, blocks and queue positions lets the stake leave before the decision is a statement about all continuations", "anchors": ["x/delegation/keeper/logic_unbonding.go", "x/delegation/keeper/msg_server_undelegate.go", "x/delegation/keeper/msg_server_redelegate.go", "x/delegation/keeper/logic_f1distribution.go", "x/bundles/keeper/logic_bundles.go"]}
{"id": "C81", "title": "When a pool runs, and no single staker decides", "statement": "Votes, submissions, skips and claims of the uploader role are accepted in a pool only if it exists, is not being upgraded, disabled or at its end key, has its minimum delegation, and no staker has more than the maximum voting power of it. Hence a bundle is finalized only if more stakers are for it than one over twice the maximum voting power; with a maximum of one half, never by one staker alone.", "quantifier": "all genesis states, all histories, pools, distributions of delegation and votes, all values of the maximum voting power", "why_tests_cant": "the maximum is a rounded product of a decimal and a sum over all members, compared with a maximum over all members; that the check at the start of a message still holds when the votes are counted depends on who is removed in between, for every history", "anchors": ["x/bundles/keeper/logic_bundles.go", "x/delegation/keeper/exported_functions.go", "x/pool/keeper/getters_params.go"]}
{"id": "C82", "title": "The team, its accounts and its authority get their share of the minted coins", "statement": "In every block the team module receives the part of the newly minted coins that its holdings are of the total supply before the block. Of this, each vesting account is credited the part that its vested but unclaimed coins are of the whole team allocation, and the authority is credited exactly what is left. Each amount differs from the exact one only by rounding.", "quantifier": "all genesis states, all histories, block times, minted amounts, numbers and sizes of vesting accounts", "why_tests_cant": "the amounts are rounded quotients of sums over all accounts and of the whole supply after the mint; that nothing is lost, nothing is paid twice and the module's check of its own balance never stops the chain is a statement about every history", "anchors": ["x/team/abci.go", "x/team/keeper/logic_team.go"]}
{"id": "C83", "title": "The outcome of a vote is fixed by the votes", "statement": "Once every member of a pool has voted on the stored bundle, its outcome is that of these votes with the stakes they were given with: delegators who move stake afterwards change neither the votes nor what they weigh, and nobody who was on the side of the majority when voting is punished.", "quantifier": "all genesis states, all histories, pools, votes, delegators and amounts", "why_tests_cant": "which stakes count is decided when the votes are counted, by whatever messages came in between; the amount that turns an outcome is a relation between sums over all voters and members in every reachable state", "anchors": ["x/bundles/keeper/logic_bundles.go", "x/delegation/keeper/msg_server_redelegate.go", "x/delegation/keeper/msg_server_delegate.go"]}
{"id": "C84", "title": "The rewards of a bundle go to the stake that stood behind it", "statement": "What a finalized bundle pays to delegators is shared among those who had delegated to its uploader while it was voted on and who would have been slashed had it been rejected; a delegation made after the votes earns nothing from it.", "quantifier": "all genesis states, all histories, delegators, amounts and payouts", "why_tests_cant": "the shares are quotients of the delegations at the moment of the payout with accumulated rounding; who is among them depends on all messages between the vote and the count", "anchors": ["x/delegation/keeper/logic_f1distribution.go", "x/delegation/keeper/msg_server_delegate.go", "x/bundles/keeper/logic_bundles.go"]}
{"id": "C85", "title": "Delegators cannot stop a pool", "statement": "A pool that runs goes on running whatever delegations are made: no delegator, and in particular nobody without stake in the pool, can make its votes and submissions be refused.", "quantifier": "all genesis states, all histories, pools, delegators, stakers and amounts", "why_tests_cant": "the check compares the maximum over all members with a rounded part of their sum, both of which a delegation changes; the amounts that matter depend on the whole distribution of stake in every reachable state", "anchors": ["x/bundles/keeper/logic_bundles.go", "x/delegation/keeper/exported_functions.go", "x/delegation/keeper/msg_server_delegate.go"]}
{"id": "C86", "title": "The waiting times in force at a request apply to it", "statement": "An undelegation is paid out once the unbonding time that was in force when it was requested has passed, neither later nor earlier, and a new commission does not apply before the commission change time that was in force when it was announced has passed, and a staker who asked to leave a pool is removed by the begin block when the leave time in force at the request has passed, whatever governance does in between.", "quantifier": "all genesis states, histories, requests and changes of parameters", "why_tests_cant": "the tests set the parameters once; the order of requests, changes of parameters and blocks is unbounded", "anchors": ["x/delegation/keeper/logic_unbonding.go", "x/delegation/keeper/msg_server_undelegate.go", "x/delegation/keeper/msg_server_update_params.go", "x/stakers/keeper/logic_commission.go", "x/stakers/keeper/msg_server_update_params.go", "x/stakers/keeper/logic_leave.go"]}
{"id": "C87", "title": "Only pools with stakers run and get inflation", "statement": "A pool that counts as running, and therefore shares in the inflation, has stakers with stake, and with a maximum voting power of one n-th at least n of them.", "quantifier": "all genesis states, histories, pools, parameters and distributions of stake", "why_tests_cant": "the number of stakers follows from a rounded comparison of the largest stake with the sum over all members, in every reachable distribution", "anchors": ["x/bundles/keeper/logic_bundles.go", "x/delegation/keeper/exported_functions.go", "x/bundles/abci.go", "x/pool/types/msgs.go"]}
