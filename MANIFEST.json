{
 "claims": [
  {
   "property": "C01",
   "status": "proved",
   "theorems": [
    "C01_principal_le_total",
    "C01_chain"
   ],
   "note": "For every history from an empty module; bound on slashes x delegators as in the statement. C01_chain: the same in every state of the whole chain, counting recorded slashes and accounts that ever delegated."
  },
  {
   "property": "C02",
   "status": "partial",
   "theorems": [
    "C02_solvent_partial",
    "C02_withdraw_paid_partial",
    "C02_reserve_partial",
    "C02_withdraw_reserve_partial",
    "C02_solvent_refuted"
   ],
   "note": "Holds while the closed-form rounding is below one base unit; false beyond it (witness halts the chain). For histories of any length: holds exactly, unit for unit, if the module account started with a reserve equal to the rounding in whole base units (the witness needs one unit)."
  },
  {
   "property": "C03",
   "status": "proved",
   "theorems": [
    "C03_no_halt"
   ],
   "note": "Unconditional for all histories."
  },
  {
   "property": "C04",
   "status": "partial",
   "theorems": [
    "C04_query_partial",
    "C04_query_unslashed_partial",
    "C04_query_since_partial",
    "C04_after_withdraw",
    "C04_query_refuted"
   ],
   "note": "Exact if no slash since the delegator's last settlement, otherwise within one base unit; exactness after a slash is refuted."
  },
  {
   "property": "C05",
   "status": "partial",
   "theorems": [
    "C05_rewards_partial",
    "C05_rewards_exact_partial",
    "C05_rewards_refuted"
   ],
   "note": "Excess bounded by the accumulated rounding in closed form; the exact claim is refuted with realistic amounts."
  },
  {
   "property": "C06",
   "status": "proved",
   "theorems": [
    "C06_isolated"
   ],
   "note": ""
  },
  {
   "property": "C07",
   "status": "partial",
   "theorems": [
    "C07_fifo",
    "C07_on_time_partial",
    "C07_on_time_refuted",
    "C07_paid_amount"
   ],
   "note": "Order, exactly once, nothing lost and the amount: proved without restriction. On time: proved while block time plus unbonding time is below 2^64; C07_on_time_refuted gives a valid parameter (2^64-50) for which the uint64 sum wraps and the request is paid in the next block."
  },
  {
   "property": "C08",
   "status": "partial",
   "theorems": [
    "C08_redelegation_limit_partial",
    "C08_redelegation_limit_refuted"
   ],
   "note": "For a fixed limit and cooldown (no parameter change), as stated; proved for a cooldown below 2^63. A cooldown of 2^63 is accepted by the validation and becomes a negative int64: C08_redelegation_limit_refuted shows unlimited redelegations, two of them in one block."
  },
  {
   "property": "C09",
   "status": "proved",
   "theorems": [
    "C09_redelegate",
    "C09_redelegate_guard"
   ],
   "note": ""
  },
  {
   "property": "C10",
   "status": "proved",
   "theorems": [
    "C10_slash",
    "C10_delegate_after"
   ],
   "note": ""
  },
  {
   "property": "C11",
   "status": "partial",
   "theorems": [
    "C11_payout_rejected_partial",
    "C11_payout_refuted"
   ],
   "note": "Holds for stakers nobody ever delegated to; refuted after all delegators left, because delegation data is never deleted."
  },
  {
   "property": "C12",
   "status": "proved",
   "theorems": [
    "C12_counts"
   ],
   "note": "All histories of the stakers machine, any block times."
  },
  {
   "property": "C13",
   "status": "proved",
   "theorems": [
    "C13_valaddresses"
   ],
   "note": ""
  },
  {
   "property": "C14",
   "status": "partial",
   "theorems": [
    "C14_commission_partial",
    "C14_only_requested_partial",
    "C14_commission_refuted"
   ],
   "note": "Exact refinement of a per-staker specification for block times and waiting times below 2^62 seconds. Parameters are not validated: a waiting time of 2^63 or more is cast to a negative int64 and changes apply immediately."
  },
  {
   "property": "C15",
   "status": "partial",
   "theorems": [
    "C15_leave_partial",
    "C15_requested_partial",
    "C15_flag_partial",
    "C15_leave_refuted"
   ],
   "note": "Exact for histories without a rejoin while an old leave request is queued (times below 2^62). In general false: a removed staker who rejoins is removed by the request of the earlier membership."
  },
  {
   "property": "C16",
   "status": "proved",
   "theorems": [
    "C16_join"
   ],
   "note": "Delegations below 2^63, valaddress funding amount affordable."
  },
  {
   "property": "C17",
   "status": "proved",
   "theorems": [
    "C17_commission_rewards"
   ],
   "note": ""
  },
  {
   "property": "C18",
   "status": "proved",
   "theorems": [
    "C18_once",
    "C18_power",
    "C18_vote"
   ],
   "note": "The sums of powers for pools whose total power is below 2^64."
  },
  {
   "property": "C19",
   "status": "proved",
   "theorems": [
    "C19_quorum",
    "C19_more_valid",
    "C19_finalized",
    "C19_one_outcome"
   ],
   "note": "The decision rule for all powers with a total below 2^63 (as the property says), and over all histories of the chain: a bundle is finalized only by a tally with a valid majority."
  },
  {
   "property": "C20",
   "status": "proved",
   "theorems": [
    "C20_archive"
   ],
   "note": "Over all histories of the integrated chain."
  },
  {
   "property": "C21",
   "status": "proved",
   "theorems": [
    "C21_lookup"
   ],
   "note": "Over all histories of the integrated chain."
  },
  {
   "property": "C22",
   "status": "partial",
   "theorems": [
    "C22_split",
    "C22_split_defined",
    "C22_all_sizes_refuted",
    "C22_unlisted_refuted"
   ],
   "note": "Proved for data sizes below 2^63; larger ones halt the chain (finding 13), as does a charged denom that is not on the whitelist (finding 14)."
  },
  {
   "property": "C23",
   "status": "proved",
   "theorems": [
    "C23_message",
    "C23_block",
    "C23_others"
   ],
   "note": "Over all histories. That the outcome is the majority of the stakes is stated for pools whose total power is below 2^63."
  },
  {
   "property": "C24",
   "status": "partial",
   "theorems": [
    "C24_vote_partial",
    "C24_submit_partial",
    "C24_tally_partial",
    "C24_others_partial",
    "C24_block_partial",
    "C24_no_bundle_refuted"
   ],
   "note": "Which acts reset points and which give them, with the exact count, over all histories. False: that a staker is slashed only after missing that many bundles (finding 17)."
  },
  {
   "property": "C25",
   "status": "partial",
   "theorems": [
    "C25_selected",
    "C25_nobody",
    "C25_excluded_partial",
    "C25_excluded_refuted"
   ],
   "note": "Selection and eligibility for all inputs. Exclusion is false when the excluded staker is first in store order (witness from real selections) and proved otherwise."
  },
  {
   "property": "C26",
   "status": "partial",
   "theorems": [
    "C26_bounded",
    "C26_proportional_partial"
   ],
   "note": "Bounds and sum for every stored state. Proportionality with constant 5 for runs in which the spread stays within twice the total delegation, i.e. the protocol does not rescale; missing: that this always holds."
  },
  {
   "property": "C27",
   "status": "proved",
   "theorems": [
    "C27_submit",
    "C27_skip",
    "C27_accepted"
   ],
   "note": "For every state reachable from a genesis by admissible messages and blocks. An accepted submission (or skip) is signed by the registered valaddress of the next uploader, the pool runs, the interval has passed and the range starts at the end of the pending bundle, without wrap-around; conversely these conditions suffice when no bundle is pending. That a rejected message changes nothing is the SDK's transaction atomicity, which is part of the model."
  },
  {
   "property": "C28",
   "status": "proved",
   "theorems": [
    "C28_status"
   ],
   "note": "For every state: status other than active/no funds means every protocol message is rejected; otherwise a member's vote and role claim are rejected only for reasons other than the pool's state. Submissions: C27_accepted."
  },
  {
   "property": "C29",
   "status": "partial",
   "theorems": [
    "C29_timeout_partial",
    "C29_role_refuted",
    "C29_point_refuted"
   ],
   "note": "False in full (findings 18 and 19); the partial theorem says exactly what happens in these two cases."
  },
  {
   "property": "C30",
   "status": "partial",
   "theorems": [
    "C30_split_partial",
    "C30_safe_partial",
    "C30_remainder_refuted",
    "C30_complete_refuted",
    "C30_halt_refuted",
    "C30_overspend_refuted",
    "C30_team_refuted"
   ],
   "note": "For every block of every history that does not stop the chain: each pool that can run gets its part by weight rounded down, every other pool gets the remainder, nothing else leaves the fee collector. A sufficient condition for not stopping, for not overspending at eligible pools and for the size of the remainder. The full claim is false: the remainder goes to pools that cannot run (each of them), is lost if there are none, can stop the chain; rounded shares may exceed the sum; the team's part is computed twice."
  },
  {
   "property": "C31",
   "status": "proved",
   "theorems": [
    "C31_inflation",
    "C31_charge"
   ],
   "note": ""
  },
  {
   "property": "C32",
   "status": "proved",
   "theorems": [
    "C32_backed",
    "C32_charge_succeeds"
   ],
   "note": "Equality instead of the claimed inequality, with what others put into the account counted apart; charging never fails."
  },
  {
   "property": "C33",
   "status": "proved",
   "theorems": [
    "C33_ledger"
   ],
   "note": "Deposits and returns are read off bank balances; the charged total is also matched with what the recipients received."
  },
  {
   "property": "C34",
   "status": "proved",
   "theorems": [
    "C34_charge_bounded"
   ],
   "note": "Exact amount charged per coin."
  },
  {
   "property": "C35",
   "status": "partial",
   "theorems": [
    "C35_actives_partial",
    "C35_actives_exact_partial",
    "C35_actives_refuted"
   ],
   "note": "False in full: a fund message without coins takes a slot with a zero amount. Proved: no duplicates, at most 50, every non-zero funding is listed; exact when every fund message carries coins."
  },
  {
   "property": "C36",
   "status": "proved",
   "theorems": [
    "C36_full_exit"
   ],
   "note": "For every reachable state, including parameters with which nobody can fund."
  },
  {
   "property": "C37",
   "status": "partial",
   "theorems": [
    "C37_displaced_partial",
    "C37_displaced_refuted",
    "C37_displaced_equal_refuted",
    "C37_blocked"
   ],
   "note": "False in full: a funder who already has a slot displaces the lowest one, and an equal score displaces. Proved: only with 50 taken slots, only the lowest score, never by a lower score, with a full refund. C37_blocked: a full pool with a funding worth 2^63 or more refuses every fund message."
  },
  {
   "property": "C38",
   "status": "partial",
   "theorems": [
    "C38_accepted_meets_partial",
    "C38_meets_accepted_partial",
    "C38_meets_accepted_refuted"
   ],
   "note": "The first half is proved in full. The converse is false for coins with a zero minimum and proved for positive minimums without duplicate entries and a free slot."
  },
  {
   "property": "C39",
   "status": "partial",
   "theorems": [
    "C39_upgrades",
    "C39_waits",
    "C39_duration_refuted"
   ],
   "note": "Effect of every message and block on version, binaries and plan of every pool, in every reachable state. Refuted for durations whose sum with the scheduled time exceeds 2^64: the upgrade is cleared in the block that applies it."
  },
  {
   "property": "C40",
   "status": "partial",
   "theorems": [
    "C40_ids",
    "C40_authority",
    "C40_settings",
    "C40_disable",
    "C40_disabled",
    "C40_whole_balance_refuted"
   ],
   "note": "Everything in every reachable state, except that disabling moves only the base denom to the treasury; refuted for other denoms sent to the pool account."
  },
  {
   "property": "C41",
   "status": "partial",
   "theorems": [
    "C41_curves_partial",
    "C41_vested_exact",
    "C41_curves_refuted"
   ],
   "note": "Proved for all times below 2^63, that is every block time. The by-time query accepts larger times; there the claim is false for commencements whose vesting end does not fit uint64."
  },
  {
   "property": "C42",
   "status": "proved",
   "theorems": [
    "C42_claims",
    "C42_claim_exact",
    "C42_only_authorities"
   ],
   "note": "For allocations below 2^63; larger ones are part of the finding for C43."
  },
  {
   "property": "C43",
   "status": "partial",
   "theorems": [
    "C43_cap_partial",
    "C43_cap_refuted",
    "C43_cap_overflow_refuted"
   ],
   "note": "False in full, in two ways: lifting a clawback after its allocation was reissued, and overflow of the sum in the check. Proved for allocations below 2^63 when clawback dates only move earlier."
  },
  {
   "property": "C44",
   "status": "partial",
   "theorems": [
    "C44_backed_partial",
    "C44_block_partial",
    "C44_block_refuted",
    "C44_authority_claim",
    "C44_account_claim"
   ],
   "note": "Proved when accounts * provision < 2*10^18 in each block and less than 2^63 is minted altogether. Beyond, rounded shares can exceed the provision. Reward claims are exact and only by the right authority."
  },
  {
   "property": "C45",
   "status": "partial",
   "theorems": [
    "C45_price_partial",
    "C45_taken_partial",
    "C45_accepted_partial",
    "C45_local_partial",
    "C45_mempool_refuted"
   ],
   "note": "Delivery: proved for all transactions, messages and multi-denom fees, in both directions. The mempool half is false when a node sets a price in another denom (finding 23) and proved for prices in the base denom. SDK decorators are re-stated, not part of the repository."
  },
  {
   "property": "C46",
   "status": "proved",
   "theorems": [
    "C46_burn"
   ],
   "note": "Over all chain histories: the fee collector and the supply of every denom fall by floor(fees x ratio) at the end of every block but the first; hence the burning cannot fail."
  },
  {
   "property": "C47",
   "status": "partial",
   "theorems": [
    "C47_refund_partial",
    "C47_never_fails_partial",
    "C47_grant_partial",
    "C47_grant_exhausted",
    "C47_grant_refuted",
    "C47_fails_refuted"
   ],
   "note": "Amount and receiver of the refund proved in full. False: a grant is charged once (finding 24); proved for transactions without refund."
  },
  {
   "property": "C48",
   "status": "proved",
   "theorems": [
    "C48_distinct",
    "C48_iterate",
    "C48_order",
    "C48_valaccounts",
    "C48_join",
    "C48_delegation",
    "C48_ranking"
   ],
   "note": "Distinctness holds for addresses of any length; iteration and reading back for the 43-byte text of a 20-byte address, as the property says (see C57 for others)."
  },
  {
   "property": "C49",
   "status": "partial",
   "theorems": [
    "C49_search",
    "C49_all_partial",
    "C49_restarts_partial",
    "C49_active",
    "C49_poolcount_refuted",
    "C49_phantom_refuted",
    "C49_restart_refuted"
   ],
   "note": "Exact for searches on chain states and for active stakers. False for the pool count query, for empty searches (phantom entries) and for restarted nodes (stakers without delegation), each with a witness; what remains true is proved. The assembled response records and the reverse flag are not modelled."
  },
  {
   "property": "C50",
   "status": "partial",
   "theorems": [
    "C50_restored",
    "C50_accepted_partial",
    "C50_team_accepted",
    "C50_leaver_refuted",
    "C50_whitelist_refuted",
    "C50_duplicates_partial",
    "C50_funders_refuted",
    "C50_stakers_refuted",
    "C50_progress_refuted"
   ],
   "note": "Import restores every store for every reachable state and every order of the records (proved in full; the in-memory staker index comes back without stakers that have no delegation data). Acceptance of the export is proved for x/delegation, x/pool, x/bundles and characterised exactly for x/stakers, x/funders and x/team; it fails for stale leave entries and for a whitelist without the base denom. Thirteen kinds of duplicates are rejected (proved) and the remaining six are accepted (witnesses). JSON encoding, x/global and the genesis of SDK modules are not modelled."
  },
  {
   "property": "C51",
   "status": "partial",
   "theorems": [
    "C51_sender",
    "C51_sender_params",
    "C51_frame",
    "C51_fields",
    "C51_pool",
    "C51_coin_refuted"
   ],
   "note": "Proved for all governance messages, senders, payloads and states: others are rejected without effect, no other operation changes a parameter, an update changes exactly the named fields. Lists are merged by position, so a coin that is named without numbers does not keep its numbers (refuted, finding 32)."
  },
  {
   "property": "C52",
   "status": "proved",
   "theorems": [
    "C52_power",
    "C52_delegations",
    "C52_votes",
    "C52_zero_refuted"
   ],
   "note": "Total, validators and votes for all chain histories; C52_votes under the bound of C01 and delegations below 2^63. C52_zero_refuted is a finding beyond the statement: validators with zero shares are reported. The tally is SDK code; only its division is restated."
  },
  {
   "property": "C53",
   "status": "proved",
   "theorems": [
    "C53_share"
   ],
   "note": "Two-sided bound; the slack R/T comes from the sub-unit balance left by slashing."
  },
  {
   "property": "C54",
   "status": "proved",
   "theorems": [
    "C54_supply",
    "C54_losers",
    "C54_gainers",
    "C54_signer"
   ],
   "note": "Over all chain histories, for every message, begin and end block (plain bank transfers of other modules, CBank, excluded). The allowed transfers are listed in MoneyFlow.allowed."
  },
  {
   "property": "C55",
   "status": "proved",
   "theorems": [
    "C55_submit",
    "C55_skip",
    "C55_end",
    "C55_nothing_left"
   ],
   "note": "over all histories of the whole chain model. The storage part is stated for data sizes below 2^63; for larger ones the payout panics (finding 13). For the end of a block, in which several pools may be judged, the theorem gives each pool's account and x/pool's account; the single-pool statement is that of the messages."
  },
  {
   "property": "C56",
   "status": "partial",
   "theorems": [
    "C56_surcharge_partial",
    "C56_rejected_partial",
    "C56_nested_refuted"
   ],
   "note": "Proved for the messages of the transaction itself; false for messages carried by authz MsgExec (finding 25)."
  },
  {
   "property": "C57",
   "status": "partial",
   "theorems": [
    "C57_staker_refuted",
    "C57_delegator_refuted"
   ],
   "note": "False for addresses longer than 43 bytes: the keys are cut at byte 43. The positive part is C48."
  },
  {
   "property": "C58",
   "status": "partial",
   "theorems": [
    "C58_bundles",
    "C58_offset_refuted",
    "C58_wrap"
   ],
   "note": "Holds for every request except newest-first offsets beyond the last bundle, which wrap around (witness, and proved for all such offsets)."
  },
  {
   "property": "C59",
   "status": "partial",
   "theorems": [
    "C59_valid_partial",
    "C59_whitelist_refuted",
    "C59_event_refuted"
   ],
   "note": "All checks of Validate hold in every state reached by any updates, except that the base denom is whitelisted, which is refuted (finding 33); the event's old parameters are refuted (finding 34). Histories with updates are shown to be histories of the chain model."
  },
  {
   "property": "C60",
   "status": "partial",
   "theorems": [
    "C60_delegation",
    "C60_unbonding_partial",
    "C60_rewards_partial",
    "C60_funding",
    "C60_unbonding_refuted",
    "C60_wrap_refuted"
   ],
   "note": "Balance, delegation (modulo 2^64) and funding hold as stated. Rewards up to one unit per staker and denom, for withdrawals that are accepted. The unbonding amounts are the sums of the requests, which can exceed what is paid, and the sum wraps (finding 40). A balance of 2^64 or more makes the query panic."
  },
  {
   "property": "C61",
   "status": "partial",
   "theorems": [
    "C61_entries_partial",
    "C61_slots_partial",
    "C61_slots_refuted",
    "C61_lowered_refuted"
   ],
   "note": "Entries for cooldowns below 2^63 that were never raised; slots unless the maximum was lowered below the slots in use. Full statement refuted: a second redelegation in one block is refused (finding 41), and the number of free slots underflows (finding 42)."
  },
  {
   "property": "C62",
   "status": "partial",
   "theorems": [
    "C62_vote",
    "C62_vote_seen",
    "C62_propose_no",
    "C62_propose_yes_partial",
    "C62_validate",
    "C62_propose_refuted"
   ],
   "note": "CanVote and CanValidate hold in full, a negative CanPropose too. A positive CanPropose guarantees that skipping is accepted, and submitting when no bundle is stored or the stored one is decided; without quorum it is refused (finding 43). Assumed for the positive direction: the base denom is whitelisted, stored data below 2^63 bytes, voting power below 2^63."
  },
  {
   "property": "C63",
   "status": "proved",
   "theorems": [
    "C63_delegators",
    "C63_stakers",
    "C63_unbondings"
   ],
   "note": "Rewards in the records are what a withdrawal pays up to one unit per denom (C04). Page sizes with offset + limit + 1 < 2^64; the reverse flag is not modelled."
  },
  {
   "property": "C64",
   "status": "partial",
   "theorems": [
    "C64_always",
    "C64_messages",
    "C64_end_partial",
    "C64_history_partial",
    "C64_end_refuted"
   ],
   "note": "Messages never set the flags of the block logic, and three of the flags are never set at all. The end of a block is covered for stored bundles below 2^63 bytes and a whitelist with the base denom; both conditions are necessary (C64_end_refuted, C22_all_sizes_refuted, C22_unlisted_refuted). The start of a block is treated in C30_safe_partial, C30_halt_refuted, C44_block_partial and C44_block_refuted. The flag of x/delegation for missing funds can be set by messages (C02_solvent_refuted)."
  },
  {
   "property": "C65",
   "status": "partial",
   "theorems": [
    "C65_by_funder_partial",
    "C65_by_pool_partial",
    "C65_funder_partial",
    "C65_funders_partial",
    "C65_registered",
    "C65_account",
    "C65_values_refuted"
   ],
   "note": "C65_account (AccountFundedList) is complete. The other queries compute a score and fail if the value of one coin is 2^63 or more (C65_values_refuted); the theorems assume smaller values. The score of a funder is a uint64 sum and not part of the statements about the statistics."
  },
  {
   "property": "C66",
   "status": "partial",
   "theorems": [
    "C66_pools",
    "C66_pool",
    "C66_members",
    "C66_staker",
    "C66_by_pool",
    "C66_vote_partial",
    "C66_tally_refuted"
   ],
   "note": "Pools, Pool, Staker and StakersByPool are proved for every history; sums are modulo 2^64 as in the code. The current vote is proved for pools with less than 2^64 delegated. Metadata, names and the reverse flag of pages are not modelled. Finding: the shown vote does not foretell the outcome (C66_tally_refuted)."
  },
  {
   "property": "C67",
   "status": "partial",
   "theorems": [
    "C67_runs",
    "C67_keeps",
    "C67_rules",
    "C67_reached",
    "C67_shares_refuted",
    "C67_proposal_refuted",
    "C67_running_refuted"
   ],
   "note": "Money, keys and data are kept; the handler panics exactly if a stored uint64 amount is at least 2^63 or an entry is negative; the result is reached by a history of the new program whenever the old records hold a state of such a history. False for the shares of the inflation, for pools in which one staker has more than half of the delegation, and for pending MsgCreatePool proposals (findings 46 and 47). Not modelled: the SDK's RunMigrations, governance parameters and titles of proposals."
  },
  {
   "property": "C68",
   "status": "partial",
   "theorems": [
    "C68_submit_partial",
    "C68_skip_partial",
    "C68_block_partial",
    "C68_claim",
    "C68_others",
    "C68_skip_refuted",
    "C68_voter_refuted",
    "C68_invalid_refuted",
    "C68_claim_refuted"
   ],
   "note": "Proved over all histories: after a first or finalizing submission and after every skip the role is with an eligible staker (member with positive stake), with nobody only if there is none; a claim needs a member and a free role; at the end of a block the role stays, is taken away or goes to a staker who was eligible; no other step changes it. The preference for voters and for somebody else than the one who skips holds if the first eligible staker by address satisfies it and is refuted otherwise. Also refuted: after an invalid bundle the role stays with the sender who was just removed; a member without stake can claim a free role."
  },
  {
   "property": "C69",
   "status": "partial",
   "theorems": [
    "C69_status_partial",
    "C69_now",
    "C69_forecast",
    "C69_claim_partial",
    "C69_rewards_partial",
    "C69_info_partial",
    "C69_create_partial",
    "C69_authority_partial",
    "C69_list",
    "C69_info_refuted",
    "C69_claim_refuted",
    "C69_status_refuted"
   ],
   "note": "Proved for all module histories: plan, status and dates for commencements with commencement + 3 years < 2^63; the current answer; the forecast; the list. Acceptance of claims and new accounts up to the shown amounts, and the summary, within the allocation cap and the mild inflation of C44. Refuted: above the cap (reachable by lifting a clawback) the available allocation wraps around and a claimable amount cannot be claimed; commencements near 2^64 are shown as clawed back. The text form of dates is not modelled."
  },
  {
   "property": "C70",
   "status": "partial",
   "theorems": [
    "C70_checks",
    "C70_rejected",
    "C70_history_partial",
    "C70_addresses_partial",
    "C70_named_partial"
   ],
   "note": "The checks and the rejection are proved for all messages and states. The history, the stored addresses and the named addresses are proved for all histories in which recorded delegations and powers stay below 2^63 (not derivable, by C05_rewards_refuted), a pool has less than 2^64 items and governance sets no interval or timeout of 2^62 seconds. That ValidateBasic runs before the handler is the SDK's doing; transaction encoding and signatures are not modelled."
  },
  {
   "property": "C71",
   "status": "proved",
   "theorems": [
    "C71_whose",
    "C71_last",
    "C71_metadata",
    "C71_update_funder",
    "C71_funder_limits_refuted",
    "C71_identity_refuted"
   ],
   "note": "Proved for all histories. Findings: funders have no limits of length and no check of the identity; stakers can share name and identity. Profiles imported by a genesis file are not covered (the histories start without profiles)."
  },
  {
   "property": "C72",
   "status": "partial",
   "theorems": [
    "C72_pays_partial",
    "C72_delegations_partial",
    "C72_stakers_partial",
    "C72_funders_partial",
    "C72_team_partial",
    "C72_bundles_partial",
    "C72_pools_partial"
   ],
   "note": "For all histories under the assumptions of C70_history_partial. Left out: what submitting and skipping a bundle do besides who may send them (C19-C25 and C31 are about that), the points of members when somebody votes, who leaves when a pool is disabled, the records of other stakers' pending commission changes (C14), and team records are only given modulo 2^64 (C33 and C34 bound them)."
  },
  {
   "property": "C73",
   "status": "partial",
   "theorems": [
    "C73_memberships",
    "C73_stake",
    "C73_commissions",
    "C73_rewards",
    "C73_bundles",
    "C73_pools",
    "C73_team",
    "C73_funds_partial",
    "C73_balances_partial",
    "C73_balances_refuted",
    "C73_displaced_refuted",
    "C73_role_refuted",
    "C73_upgrade_refuted",
    "C73_scheduled_refuted",
    "C73_leave_refuted"
   ],
   "note": "Partial because the full statement is false for the funds of a pool: the event of a displaced funder has no amounts (C73_displaced_refuted); without such an event the sums are exact, and they are never too low; the same for what the displaced funder has (C73_balances_refuted). The balances of users are followed as long as x/delegation has not run out of funds (C05); what modules outside the model do to a balance is taken as given. Delegations are compared modulo 2^64. The heights of finalized bundles, the time of the last update of a proposal, the next uploader, runtime upgrades and pending announcements cannot be known from events; events of parameters and profiles are left out."
  },
  {
   "property": "C74",
   "status": "partial",
   "theorems": [
    "C74_newcomer_partial",
    "C74_newcomer_refuted"
   ],
   "note": "Partial because the full statement is false: if those who were there before all have a negative progress (others have left or were excluded), the newcomer can be ahead of them (C74_newcomer_refuted). Proved if one of them has a progress of at least zero and the values are not rescaled."
  },
  {
   "property": "C75",
   "status": "partial",
   "theorems": [
    "C75_accounts_partial",
    "C75_step_partial",
    "C75_disabled_refuted"
   ],
   "note": "Partial because the full statement is false: the inflation of a pool that is disabled goes to the treasury without an event (C75_disabled_refuted), and the refund of a displaced funder has no amount (C73_balances_refuted; the sums are then off in a known direction). Fees, minting and the split of the inflation have no events of these modules. Everything else is exact, per step and over all histories, as long as x/delegation has not run out of funds (C05)."
  },
  {
   "property": "C76",
   "status": "partial",
   "theorems": [
    "C76_unbondings",
    "C76_dates_partial",
    "C76_dates_refuted",
    "C76_says",
    "C76_votes",
    "C76_contents",
    "C76_skipped",
    "C76_funders",
    "C76_out_of_funds",
    "C76_rest_refuted",
    "C76_next_refuted",
    "C76_plan_refuted",
    "C76_fund_refuted"
   ],
   "note": "Partial because the full statement is false in five places, each with a witness: the date of an undelegation when the time of unbonding is changed, the next uploader of a bundle that is not valid (the event has none), the time of an upgrade planned for the past, an amount per bundle in a coin the funder does not hold, and the last funder who takes the rest back (no event). The rest is proved for all histories; the counts if the stake of the pool is below 2^64, the status from the counts below 2^63. In the turns at the end of a block the counts may use a stake already slashed in the turn of another pool of the same block."
  },
  {
   "property": "C77",
   "status": "partial",
   "theorems": [
    "C77_funds",
    "C77_exit",
    "C77_displaced",
    "C77_commission",
    "C77_members",
    "C77_join",
    "C77_rewards",
    "C77_isolated",
    "C77_unbonding",
    "C77_team_claims",
    "C77_team_backed_partial"
   ],
   "note": "All parts for all chain histories from any genesis; missing from the full statement: that x/team holds what it owes is only proved for histories in which the allocations stay within the 165 million (C43 is false otherwise), allocations are below 2^63 and a block's inflation times the number of accounts is below 2*10^18 (C44 is false otherwise); the backing of delegators' rewards is C02."
  },
  {
   "property": "C78",
   "status": "partial",
   "theorems": [
    "C78_join",
    "C78_accepted",
    "C78_covered",
    "C78_stuck",
    "C78_stuck_pool",
    "C78_gift_refuted"
   ],
   "note": "The first part is false (C78_gift_refuted, finding 63): a join naming the account of x/funders leaves coins there that no continuation pays out. Proved: such a join is accepted exactly if a join naming a user is, does the same and moves exactly its coins; every history with such joins ends like an admissible chain history, so all other theorems apply; the coins stay in x/funders and x/pool for ever."
  },
  {
   "property": "C79",
   "status": "partial",
   "theorems": [
    "C79_settled",
    "C79_paused",
    "C79_ended",
    "C79_end_refuted",
    "C79_points_refuted"
   ],
   "note": "Partial because the full statement is false for pools that stop: a bundle stored when the pool reaches its end key is never decided (finding 64), and points are given for a time in which no vote was accepted (finding 65). Proved for all histories: in pools that can run at their turn every bundle is settled as stated, if the stake of the pool is below 2^63 and the block does not halt (C64 says when); what happens to the bundle of a pool that cannot run; that nothing but the authority reaches a pool at its end key."
  },
  {
   "property": "C80",
   "status": "partial",
   "theorems": [
    "C80_trapped_partial",
    "C80_punished_partial",
    "C80_redelegated_refuted"
   ],
   "note": "Partial because the full statement is false: a redelegation takes effect at once, so stake moved to another staker between the vote and the decision is not slashed (C80_redelegated_refuted, finding 66). Proved for all histories: stake of which nothing is being undelegated stays with its staker for the whole unbonding time, even if its owner asks for it back at once, and every slash of the staker cuts it by its fraction (up to one unit of rounding per slash); in particular the penalty of a submission or skip that decides a bundle against the staker. Hypothesis of the second theorem: delegation of the pool below 2^63 for the verdict."
  },
  {
   "property": "C81",
   "status": "partial",
   "theorems": [
    "C81_runs",
    "C81_needs_partial",
    "C81_block_needs",
    "C81_alone_refuted"
   ],
   "note": "Partial because the last part is false (C81_alone_refuted, finding 67): the voting power is checked before those who reach the maximum of points are removed, so one staker with exactly the allowed half can finalize a bundle alone. Proved for all histories with less than 2^63 delegated to the pool: the pool runs exactly under the written conditions and refuses the four messages otherwise; if nobody is removed, a message finalizes a bundle only with more supporters than one over twice the maximum; the end of a block always needs them."
  },
  {
   "property": "C82",
   "status": "partial",
   "theorems": [
    "C82_grant_partial",
    "C82_near_partial"
   ],
   "note": "For histories within the total allocation and with moderate inflation (hypotheses quiet and minted_all < 2^63, as in C44); the team's part, the part of each account, the authority's rest, and the distance from the exact amount. Outside these hypotheses the chain can halt, see C44."
  },
  {
   "property": "C83",
   "status": "partial",
   "theorems": [
    "C83_swing",
    "C83_cost",
    "C83_decided_refuted"
   ],
   "note": "Refuted: the weights are those at the count. What holds: moving stake changes no vote, and changes the stake for, against and in total exactly by what is moved (C83_swing); the exact amount that makes a bundle valid (C83_cost). For pools with less than 2^63 stake."
  },
  {
   "property": "C84",
   "status": "partial",
   "theorems": [
    "C84_fresh",
    "C84_risk_refuted"
   ],
   "note": "Refuted: a delegation made after all votes shares in the payout, and can leave in the same block. What holds: it shares exactly in proportion, and so do all others with the new total (C84_fresh, for stakes below 2^63)."
  },
  {
   "property": "C85",
   "status": "partial",
   "theorems": [
    "C85_stop",
    "C85_outsider_refuted"
   ],
   "note": "Refuted: one unit delegated to a staker at the maximum voting power stops the pool. What holds: exactly which delegations stop a running pool (C85_stop, for pools with less than 2^63 stake)."
  },
  {
   "property": "C86",
   "status": "partial",
   "theorems": [
    "C86_kept_partial",
    "C86_commission_partial",
    "C86_leave_partial",
    "C86_longer_refuted",
    "C86_sooner_refuted",
    "C86_commission_refuted",
    "C86_leave_refuted"
   ],
   "note": "Refuted: a change of a waiting time reaches requests already made, in both directions for undelegations, and for commissions and stakers who leave. What holds: undelegations are paid exactly when they were to be as long as the parameters of x/delegation are not updated (C86_kept_partial, for times whose sum with the waiting time is below 2^64), and a commission changes only in a block, as requested and after the waiting time of that block, which is the announced one if the parameters of x/stakers are not updated (C86_commission_partial, for waiting times below 2^62). The same for stakers who are removed from a pool in a begin block, who are never removed earlier (C86_leave_partial; that they are removed then is C15). Missing: anything about requests under way when the parameters change, where the property is false."
  },
  {
   "property": "C87",
   "status": "partial",
   "theorems": [
    "C87_crew",
    "C87_empty_refuted"
   ],
   "note": "Refuted for pools without a minimum delegation: a pool nobody has joined runs and gets inflation. With a minimum it holds (C87_crew, for pools with less than 2^63 stake)."
  }
 ]
}