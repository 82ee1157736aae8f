{"id": "C01", "title": "Single-choice tallies equal the recorded ballots", "statement": "After any history of calls to a single-choice proposal module, the yes / no / abstain totals reported for every proposal equal the sums of the powers of the ballots recorded on it for that option, every ballot's power equals the voter's positive voting power at the proposal's start height, and the three totals together never exceed the proposal's total power.", "quantifier": "every history of execute calls and replies, including nested (re-entrant) calls made while a sub-message runs and reverted transactions; every voting-power distribution", "why_tests_cant": "Depends on arbitrarily long interleavings of voting, re-voting, execution and re-entrancy by unboundedly many voters.", "anchors": ["contracts/proposal/dao-proposal-single/src/contract.rs: execute_vote, execute_propose", "packages/dao-voting/src/voting.rs: Votes::add_vote, Votes::remove_vote, Votes::total"]}
{"id": "C02", "title": "At most one ballot per address, never weightless", "statement": "An address can have at most one ballot per proposal; a vote is accepted only before the proposal's expiration, only on an existing proposal, and only from an address whose voting power at the proposal's start height is positive. Voting power obtained after the proposal started has no effect.", "quantifier": "every state, block, sender and vote message", "why_tests_cant": "Tests only show particular senders and blocks being refused; the claim is for every one.", "anchors": ["contracts/proposal/dao-proposal-single/src/contract.rs: execute_vote", "contracts/proposal/dao-proposal-single/src/state.rs: BALLOTS"]}
{"id": "C03", "title": "Ballots are immutable without re-voting, and replaced (not added) with it", "statement": "If a proposal was created with re-voting disabled, a ballot once cast keeps its option and power in every later state. If re-voting is enabled, a re-vote moves exactly the voter's power from the old option to the new one.", "quantifier": "every history after the ballot was cast", "why_tests_cant": "Quantifies over all later histories, including configuration changes.", "anchors": ["contracts/proposal/dao-proposal-single/src/contract.rs: execute_vote", "packages/dao-voting/src/voting.rs: Votes::remove_vote"]}
{"id": "C04", "title": "An early pass is final", "statement": "With re-voting disabled, if a proposal is reported as passed (or in the veto timelock) before its expiration, then whatever further votes are cast within the remaining voting power, it would also be passed when evaluated at any later block up to and after expiration; voting after an early decision never changes the outcome.", "quantifier": "every threshold kind and percentage, every tally, every sequence of additional votes bounded by the total power, every later block", "why_tests_cant": "The set of possible future vote sequences is unbounded.", "anchors": ["contracts/proposal/dao-proposal-single/src/proposal.rs: is_passed, current_status", "packages/dao-voting/src/voting.rs: does_vote_count_pass"]}
{"id": "C05", "title": "An early rejection is final", "statement": "With re-voting disabled, if a proposal is reported as rejected before its expiration, then no continuation of votes within the remaining voting power reaches the configured passing threshold in exact arithmetic; and for Majority, absolute-count and percentages with at most nine decimals no continuation makes the contract itself report it passed.", "quantifier": "every threshold, tally, and continuation", "why_tests_cant": "Quantifies over all continuations and rounding cases.", "anchors": ["contracts/proposal/dao-proposal-single/src/proposal.rs: is_rejected", "packages/dao-voting/src/voting.rs: does_vote_count_fail, compare_vote_count"]}
{"id": "C06", "title": "Outcome at expiry follows the configured threshold", "statement": "At and after expiration an open proposal is reported passed exactly when the configured rule holds: absolute percentage of non-abstaining total power, quorum plus percentage of non-abstaining cast votes, or absolute yes count. Percent comparisons agree with exact rational arithmetic up to less than one billionth of a vote in favour of passing and are exact when the percentage has at most nine decimals; an all-abstain proposal never passes.", "quantifier": "every threshold, tally within the total power, and block at or after expiration", "why_tests_cant": "Rounding behaviour over all 128-bit tallies and 18-decimal percentages cannot be enumerated.", "anchors": ["contracts/proposal/dao-proposal-single/src/proposal.rs: is_passed, current_status", "packages/dao-voting/src/voting.rs: compare_vote_count, does_vote_count_pass"]}
{"id": "C07", "title": "No tally satisfies both the pass and the reject test", "statement": "The pass test and the reject test of the voting package are never both true for the same tally (as the documentation of the comparison function claims), so the outcome does not depend on the order of votes.", "quantifier": "every tally within the total power and every valid percentage", "why_tests_cant": "The only violations are at specific 18-digit percentages; random or hand-picked tests miss them.", "anchors": ["packages/dao-voting/src/voting.rs: compare_vote_count (doc comment), does_vote_count_pass, does_vote_count_fail"]}
{"id": "C08", "title": "Minimum voting period is respected", "statement": "A proposal created with a minimum voting period is never reported as passed or timelocked, and can never be executed, before that period has elapsed, no matter how it was voted on.", "quantifier": "every history and block before the minimum period's end", "why_tests_cant": "Quantifies over all vote histories and all blocks in the window.", "anchors": ["contracts/proposal/dao-proposal-single/src/proposal.rs: is_passed", "contracts/proposal/dao-proposal-single/src/contract.rs: execute_propose"]}
{"id": "C09", "title": "With re-voting nothing is decided before expiration", "statement": "A proposal created with re-voting enabled stays open until its expiration unless it is vetoed: it is never reported passed or rejected, executed or closed earlier.", "quantifier": "every history and block before expiration", "why_tests_cant": "Quantifies over all histories of votes and re-votes.", "anchors": ["contracts/proposal/dao-proposal-single/src/proposal.rs: is_passed, is_rejected"]}
{"id": "C10", "title": "A proposal's messages are dispatched at most once and only after passing", "statement": "Over any history, the messages of a single-choice proposal are dispatched to the DAO at most once, and only by an execute call made while the proposal is reported passed (by a member with power at its start height if the module is so configured), or in the veto timelock by the vetoer with early execution enabled. The messages dispatched are exactly those proposed.", "quantifier": "every history, including re-entrant calls made by the dispatched messages themselves", "why_tests_cant": "Re-entrancy and retry after failure give unboundedly many schedules.", "anchors": ["contracts/proposal/dao-proposal-single/src/contract.rs: execute_execute, reply"]}
{"id": "C11", "title": "Terminal statuses are final", "statement": "Once a proposal is reported as executed, closed, vetoed or execution-failed at the end of a transaction, it is reported with that same status forever.", "quantifier": "every history after the transaction", "why_tests_cant": "Quantifies over all later histories and blocks.", "anchors": ["contracts/proposal/dao-proposal-single/src/contract.rs: execute_execute, execute_close, execute_veto, reply", "contracts/proposal/dao-proposal-single/src/proposal.rs: current_status"]}
{"id": "C12", "title": "Veto is limited to the vetoer and to its window", "statement": "A proposal becomes vetoed only through a call by the vetoer recorded on it at creation, made while it is in the timelock, or while open if veto-before-passed is set. A vetoed proposal's messages are never dispatched.", "quantifier": "every history", "why_tests_cant": "All senders, blocks and statuses must be covered, and 'never' ranges over all continuations.", "anchors": ["contracts/proposal/dao-proposal-single/src/contract.rs: execute_veto", "packages/dao-voting/src/veto.rs: VetoConfig"]}
{"id": "C13", "title": "The timelock delays ordinary execution until expiration plus the timelock", "statement": "If a proposal carries a veto configuration, no one but the vetoer (with early execution enabled) can have its messages dispatched before the proposal's expiration plus the timelock duration.", "quantifier": "every history and every block before that point", "why_tests_cant": "Quantifies over all histories and blocks.", "anchors": ["contracts/proposal/dao-proposal-single/src/proposal.rs: current_status", "contracts/proposal/dao-proposal-single/src/contract.rs: execute_execute"]}
{"id": "C14", "title": "Proposal terms are fixed at creation and ids are never reused", "statement": "After a proposal is created, its proposer, messages, threshold, total power, start height, expiration, minimum voting period, re-voting flag and veto configuration never change, whatever configuration updates follow; ids are handed out consecutively and a created proposal never disappears.", "quantifier": "every history after creation", "why_tests_cant": "Quantifies over all later histories including configuration updates by the DAO.", "anchors": ["contracts/proposal/dao-proposal-single/src/contract.rs: execute_propose, execute_update_config", "contracts/proposal/dao-proposal-single/src/state.rs"]}
{"id": "C15", "title": "Only the DAO administers the module and only permitted senders propose", "statement": "The configuration, the creation policy and both hook lists change only in calls made by the DAO, except that a failing hook is dropped and a failing pre-propose module is replaced by 'anyone'. A proposal is created only by a sender permitted by the creation policy, and its recorded proposer is the sender (open policy) or the address named by the pre-propose module.", "quantifier": "every call by every sender in every state", "why_tests_cant": "Authorisation claims range over all senders and states.", "anchors": ["contracts/proposal/dao-proposal-single/src/contract.rs: execute_update_config, execute_update_proposal_creation_policy, execute_add_proposal_hook, execute_remove_proposal_hook, execute_add_vote_hook, execute_remove_vote_hook, execute_propose, reply", "packages/dao-voting/src/pre_propose.rs: ProposalCreationPolicy::is_permitted"]}
{"id": "C16", "title": "No proposal is stuck", "statement": "Once a proposal's expiration plus timelock has passed it is either already finished (executed, closed, vetoed, failed), or an execute call by an eligible sender succeeds, or a close call by anyone succeeds; status computation never panics or errors in a reachable state.", "quantifier": "every reachable state and every later block", "why_tests_cant": "Arithmetic panics and unit mismatches depend on unbounded histories.", "anchors": ["contracts/proposal/dao-proposal-single/src/proposal.rs: current_status, is_passed, is_rejected", "contracts/proposal/dao-proposal-single/src/contract.rs: execute_execute, execute_close"]}
{"id": "C17", "title": "The queried status is the status acted upon", "statement": "The status returned by the proposal query in a block is the one that execute, close and veto in that block base their decision on; between calls the reported status only moves along open -> (rejected | timelock | passed), timelock -> passed.", "quantifier": "every reachable state and pair of blocks", "why_tests_cant": "Ranges over all states and passage of time.", "anchors": ["contracts/proposal/dao-proposal-single/src/proposal.rs: into_response, update_status, current_status"]}
{"id": "C18", "title": "Execution failure is contained", "statement": "If the module is configured to close proposals on execution failure and the dispatched messages fail, the DAO-side effects are reverted, the proposal becomes execution-failed and its messages are never dispatched again; otherwise the failing execute call reverts entirely and leaves the proposal passed.", "quantifier": "every history with every pattern of sub-message failures", "why_tests_cant": "Crash points inside nested calls are not enumerable by tests.", "anchors": ["contracts/proposal/dao-proposal-single/src/contract.rs: execute_execute, reply", "packages/dao-voting/src/reply.rs"]}
{"id": "C19", "title": "A failing hook is removed, and only that hook", "statement": "When hook receivers fail while a proposal module call is processed, exactly the failing receivers are removed from the hook list and the call itself still succeeds.", "quantifier": "every hook list and every subset of failing receivers", "why_tests_cant": "The number of failing subsets is exponential; the defect needs two failures in one transaction.", "anchors": ["packages/cw-hooks/src/lib.rs: remove_hook_by_index", "packages/dao-hooks/src/proposal.rs: new_proposal_hooks, proposal_status_changed_hooks", "packages/dao-hooks/src/vote.rs: new_vote_hooks", "contracts/proposal/dao-proposal-single/src/contract.rs: reply"]}
{"id": "C20", "title": "Reply ids decode to what they were encoded from", "statement": "For every proposal id or hook index below 2^61 and every kind of sub-message, decoding the reply id yields the same kind and the same number; distinct (kind, number) pairs have distinct ids.", "quantifier": "all 64-bit numbers", "why_tests_cant": "2^61 values times five kinds.", "anchors": ["packages/dao-voting/src/reply.rs: TaggedReplyId::new, mask_proposal_execution_proposal_id, mask_proposal_hook_index, mask_vote_hook_index"]}
{"id": "C21", "title": "Voting arithmetic never aborts", "statement": "With a well-behaved voting module (powers sum to at most the total, total below 2^128) no subtraction underflows and no addition overflows in tallying or status computation in any reachable state, so votes, executions and closings are never refused because of an arithmetic panic.", "quantifier": "every history", "why_tests_cant": "Needs an invariant over unbounded histories.", "anchors": ["contracts/proposal/dao-proposal-single/src/proposal.rs: is_passed, is_rejected", "packages/dao-voting/src/voting.rs: Votes"]}
{"id": "C22", "title": "Multiple-choice tallies equal the recorded ballots", "statement": "After any history, the weight of every option of a multiple-choice proposal equals the sum of the powers of the ballots for that option, ballots name an existing option, and all weights together never exceed the total power.", "quantifier": "every history and option list", "why_tests_cant": "Unbounded interleavings of votes and re-votes.", "anchors": ["contracts/proposal/dao-proposal-multiple/src/contract.rs: execute_vote", "packages/dao-voting/src/multiple_choice.rs: MultipleChoiceVotes"]}
{"id": "C23", "title": "A multiple-choice proposal passes only with a unique winner that cannot be beaten", "statement": "With re-voting disabled, if a multiple-choice proposal is reported passed before expiration then under every continuation of votes within the remaining power the same option is still the unique strict winner, quorum is still met, and the proposal is still passed.", "quantifier": "every tally, option count, and continuation", "why_tests_cant": "Continuations are unbounded.", "anchors": ["contracts/proposal/dao-proposal-multiple/src/proposal.rs: is_passed, is_choice_unbeatable, calculate_vote_result"]}
{"id": "C24", "title": "A multiple-choice early rejection is final", "statement": "With re-voting disabled, if a multiple-choice proposal is reported rejected before expiration, no continuation of votes within the remaining power makes it pass.", "quantifier": "every tally, option count and continuation", "why_tests_cant": "Continuations are unbounded.", "anchors": ["contracts/proposal/dao-proposal-multiple/src/proposal.rs: is_rejected, is_choice_unbeatable"]}
{"id": "C25", "title": "Only the winning option's messages are dispatched", "statement": "When a multiple-choice proposal is executed, the dispatched messages are those of the option that has strictly more weight than every other option, that option is never 'none of the above', ties never execute, and execution happens at most once per proposal.", "quantifier": "every history", "why_tests_cant": "Requires the invariant linking the recorded status with votes cast after the decision.", "anchors": ["contracts/proposal/dao-proposal-multiple/src/contract.rs: execute_execute", "contracts/proposal/dao-proposal-multiple/src/proposal.rs: calculate_vote_result"]}
{"id": "C26", "title": "Multiple-choice lifecycle", "statement": "For multiple-choice proposals terms are fixed at creation, ids are consecutive, executed / closed / vetoed / failed are final, veto and timelock restrictions, and the DAO-only administration hold exactly as for single-choice proposals.", "quantifier": "every history", "why_tests_cant": "Quantifies over all histories.", "anchors": ["contracts/proposal/dao-proposal-multiple/src/contract.rs", "contracts/proposal/dao-proposal-multiple/src/proposal.rs: current_status"]}
{"id": "C27", "title": "The Condorcet matrix counts pairwise preferences", "statement": "After any history of votes, the stored margin for candidates (x, y) equals the power that prefers x over y minus the power that prefers y over x, for every pair; every vote recorded is a complete ranking; the packed triangular storage never aliases two pairs and never reads out of bounds.", "quantifier": "every number of candidates and every multiset of ballots", "why_tests_cant": "Number of rankings is factorial and histories are unbounded.", "anchors": ["contracts/proposal/dao-proposal-condorcet/src/m.rs: M::index, M::increment, M::decrement, M::get", "contracts/proposal/dao-proposal-condorcet/src/tally.rs: Tally::add_vote", "contracts/proposal/dao-proposal-condorcet/src/cell.rs", "contracts/proposal/dao-proposal-condorcet/src/vote.rs: Vote::new"]}
{"id": "C28", "title": "The reported Condorcet winner is the Condorcet winner", "statement": "The tally reports a winner exactly when some candidate beats every other candidate in pairwise power, and then reports that (unique) candidate.", "quantifier": "every number of candidates and every ballot history", "why_tests_cant": "Universal over all ballot profiles.", "anchors": ["contracts/proposal/dao-proposal-condorcet/src/tally.rs: Tally::winner", "contracts/proposal/dao-proposal-condorcet/src/m.rs: M::stats"]}
{"id": "C29", "title": "Undisputed and never are final", "statement": "If a Condorcet tally reports an undisputed winner, the same candidate is the winner after every continuation of ballots within the remaining power; if it reports that there can be no winner, no continuation yields one.", "quantifier": "every ballot history and continuation", "why_tests_cant": "Continuations are unbounded.", "anchors": ["contracts/proposal/dao-proposal-condorcet/src/tally.rs: Tally::winner", "contracts/proposal/dao-proposal-condorcet/src/m.rs: M::stats"]}
{"id": "C30", "title": "Condorcet proposal lifecycle", "statement": "A Condorcet proposal is executed at most once, only the winning choice's messages are dispatched, only when it is passed, votes are accepted at most once per address and only before expiration, and closed / executed statuses are final.", "quantifier": "every history", "why_tests_cant": "Unbounded histories.", "anchors": ["contracts/proposal/dao-proposal-condorcet/src/contract.rs: execute_vote, execute_execute, execute_close, reply", "contracts/proposal/dao-proposal-condorcet/src/proposal.rs: Proposal::status"]}
{"id": "C31", "title": "A proposal deposit is returned at most once, to the right party", "statement": "For every proposal created through a pre-propose module with a deposit, over any history of the combined pre-propose and proposal modules the deposit is paid out at most once, in the amount and token taken, to the proposer or to the DAO as dictated by the refund policy recorded when it was taken and the proposal's final status.", "quantifier": "every history of the combined modules and every refund policy", "why_tests_cant": "Single payout relies on a property of another contract's whole history.", "anchors": ["packages/dao-pre-propose-base/src/execute.rs: execute_propose, execute_proposal_completed_hook", "packages/dao-voting/src/deposit.rs: get_return_deposit_message", "contracts/proposal/dao-proposal-single/src/contract.rs: execute_execute, execute_close, execute_veto"]}
{"id": "C32", "title": "A proposal is created only if its deposit is paid in full", "statement": "With a deposit configured, a pre-propose call that creates a proposal transfers exactly the configured amount of the configured token from the sender to the module in the same transaction; if the payment is missing, short or over, no proposal is created. Later configuration updates do not change the deposit recorded for existing proposals.", "quantifier": "every call, payment and configuration history", "why_tests_cant": "All payments and all later configuration changes.", "anchors": ["packages/dao-pre-propose-base/src/execute.rs: execute_propose, execute_update_config", "packages/dao-voting/src/deposit.rs: check_native_deposit_paid, get_take_deposit_messages"]}
{"id": "C33", "title": "Submission policy: denylist always wins", "statement": "A sender on the denylist can never submit; under the 'specific' policy a sender is accepted exactly if it is on the allowlist or members are allowed and it has voting power; every accepted policy update leaves allow- and denylist disjoint and someone able to submit.", "quantifier": "every policy, every update history, every sender", "why_tests_cant": "All update histories and addresses.", "anchors": ["packages/dao-pre-propose-base/src/execute.rs: check_can_submit, execute_update_submission_policy", "packages/dao-pre-propose-base/src/helpers.rs: add_and_remove_addresses", "packages/dao-voting/src/pre_propose.rs: PreProposeSubmissionPolicy::validate"]}
{"id": "C34", "title": "Approval flow resolves each pending proposal exactly once", "statement": "A proposal submitted for approval is either pending, approved, or rejected; only the current approver moves it out of pending, it moves at most once, approval creates the proposal exactly as submitted with the deposit recorded at submission, and rejection pays the deposit out exactly once (to the proposer only if the policy is 'always').", "quantifier": "every history of submissions, approvals, rejections and configuration changes", "why_tests_cant": "Unbounded histories.", "anchors": ["contracts/pre-propose/dao-pre-propose-approval-single/src/contract.rs: execute_propose, execute_approve, execute_reject", "contracts/pre-propose/dao-pre-propose-approval-single/src/state.rs"]}
{"id": "C35", "title": "Completion of an approver proposal never disables the approver module", "statement": "Whatever final status the approver DAO's proposal reaches, the approver pre-propose module handles the completion hook without error, so the proposal module keeps it installed.", "quantifier": "every final status", "why_tests_cant": "The failing status (veto) is reachable only with a veto configuration that tests do not combine with the approver module.", "anchors": ["contracts/pre-propose/dao-pre-propose-approver/src/contract.rs: execute_proposal_completed"]}
{"id": "C36", "title": "cw20 staking is always solvent and never aborts on its own arithmetic", "statement": "In every reachable state the sum of all stakers' balances equals the total staked, the pool balance is at least the total staked, and the contract's token holdings cover the pool balance plus all unclaimed unbonding claims; the panicking conversions in the share arithmetic are never reached within 128-bit supply.", "quantifier": "every history of stake, fund, unstake, claim and configuration calls", "why_tests_cant": "Invariant over unbounded histories with rounding.", "anchors": ["contracts/staking/cw20-stake/src/contract.rs: execute_stake, execute_unstake, execute_fund, execute_claim", "contracts/staking/cw20-stake/src/math.rs"]}
{"id": "C37", "title": "No one can take value out of the pool beyond their share", "statement": "The value of a share never decreases through any staking, unstaking or funding by anyone; staking and immediately unstaking never returns more than was put in; an unstake pays at most the proportional share of the pool.", "quantifier": "every state, amount and history", "why_tests_cant": "Rounding direction must be right for all 128-bit combinations.", "anchors": ["contracts/staking/cw20-stake/src/math.rs: amount_to_stake, amount_to_claim", "contracts/staking/cw20-stake/src/contract.rs: execute_stake, execute_unstake"]}
{"id": "C38", "title": "Unbonding claims are paid exactly once and never early", "statement": "Tokens unstaked with an unbonding period are paid to the unstaker only at or after the recorded release point, each claim exactly once, and nobody else can collect or cancel them; later changes of the unbonding period do not affect existing claims.", "quantifier": "every history", "why_tests_cant": "Unbounded histories of claims and configuration changes.", "anchors": ["contracts/staking/cw20-stake/src/contract.rs: execute_unstake, execute_claim"]}
{"id": "C39", "title": "Past staking snapshots never change and always add up", "statement": "For every past block height the balances reported at that height sum to the total reported at that height, and neither changes with later activity.", "quantifier": "every history and every height", "why_tests_cant": "All histories and heights.", "anchors": ["contracts/staking/cw20-stake/src/contract.rs: query_staked_balance_at_height, query_total_staked_at_height", "contracts/staking/cw20-stake/src/state.rs: STAKED_BALANCES, STAKED_TOTAL"]}
{"id": "C40", "title": "Staking a positive amount gives positive stake", "statement": "Whenever a positive amount is staked, the staker's balance increases by a positive amount.", "quantifier": "every pool state and amount", "why_tests_cant": "Fails only for extreme share prices that tests do not construct.", "anchors": ["contracts/staking/cw20-stake/src/math.rs: amount_to_stake"]}
{"id": "C41", "title": "Token-staked voting power adds up at every height", "statement": "At every height the powers of all addresses sum to the total power, and the token holdings of the module equal total stake plus unreleased claims.", "quantifier": "every history and height", "why_tests_cant": "All histories and heights.", "anchors": ["contracts/voting/dao-voting-token-staked/src/contract.rs: execute_stake, execute_unstake, execute_claim, query_voting_power_at_height, query_total_power_at_height"]}
{"id": "C42", "title": "A proposal's electorate cannot be manipulated after it starts", "statement": "For a proposal module running on the token-staked voting module, staking or unstaking at or after the block in which a proposal is created changes neither any voter's power on it nor its total power, and the tally of every proposal is bounded by its total power without any assumption on the voting module.", "quantifier": "every interleaving of staking and proposal calls", "why_tests_cant": "Interleavings of two contracts across blocks are unbounded.", "anchors": ["contracts/voting/dao-voting-token-staked/src/contract.rs: query_voting_power_at_height", "contracts/proposal/dao-proposal-single/src/contract.rs: execute_propose, execute_vote"]}
{"id": "C43", "title": "Staked NFTs are held safely and counted once", "statement": "Every NFT held by the voting module is either staked by exactly one address or in exactly one pending claim; an NFT is released only to the address that staked it, once, and not before the unbonding period; the power of an address equals its number of staked NFTs and powers sum to the total.", "quantifier": "every history", "why_tests_cant": "Unbounded histories, including re-staking after claims.", "anchors": ["contracts/voting/dao-voting-cw721-staked/src/contract.rs: execute_stake, execute_unstake, execute_claim_nfts", "contracts/voting/dao-voting-cw721-staked/src/state.rs: register_staked_nft, register_unstaked_nfts", "packages/cw721-controllers/src/nft_claim.rs"]}
{"id": "C44", "title": "Active threshold means what it says", "statement": "With an active threshold the module reports active exactly when the total staked reaches the configured count, or at least the configured percentage of the token supply (rounded up at nine decimals), and thresholds that no stake could ever reach are refused.", "quantifier": "every supply, stake and threshold", "why_tests_cant": "Rounding over all 128-bit values.", "anchors": ["contracts/voting/dao-voting-token-staked/src/contract.rs: query_is_active", "packages/dao-voting/src/threshold.rs: assert_valid_absolute_count_threshold, assert_valid_percentage_threshold"]}
{"id": "C45", "title": "Vesting never pays more than has vested", "statement": "At every time the amount paid to the recipient is at most the amount vested at that time (less slashing), never decreases, and equals the full total once everything has vested, nothing is slashed and everything is liquid.", "quantifier": "every vesting curve, history of distributions, staking, slashing and cancellation, every time", "why_tests_cant": "Continuous schedules and unbounded histories.", "anchors": ["contracts/external/cw-vesting/src/vesting.rs: distributable, distribute, Vest::vested, liquid"]}
{"id": "C46", "title": "Vesting conserves the vested tokens", "statement": "Tokens paid to the recipient, tokens returned to the owner, tokens staked, tokens slashed and tokens still held always add up to the funded total; no payout ever exceeds what the contract holds before cancellation.", "quantifier": "every history", "why_tests_cant": "Unbounded histories.", "anchors": ["contracts/external/cw-vesting/src/vesting.rs", "contracts/external/cw-vesting/src/contract.rs", "packages/cw-stake-tracker/src/lib.rs"]}
{"id": "C47", "title": "Cancelling a vest never takes vested tokens and never leaves unvested tokens to the recipient", "statement": "After cancellation at time t the recipient's lifetime receipts are bounded by what had vested at t, the owner's by what had not, and later distributions never depend on time.", "quantifier": "every history before and after the cancellation", "why_tests_cant": "Interaction of cancellation with staking and slashing over unbounded histories.", "anchors": ["contracts/external/cw-vesting/src/vesting.rs: cancel, withdraw_canceled_payment"]}
{"id": "C48", "title": "After cancellation every reported distributable amount can be paid", "statement": "After a vest is cancelled, a distribute call for the reported distributable amount never exceeds the tokens the contract actually holds.", "quantifier": "every history with slashing before or after the cancellation", "why_tests_cant": "Needs slash, cancel and partial undelegation in a particular order.", "anchors": ["contracts/external/cw-vesting/src/vesting.rs: cancel, liquid, distributable, register_slash"]}
{"id": "C49", "title": "The wormhole map updates the present and all of the future", "statement": "Loading a key at time t returns the sum of all increments and decrements made at times up to t, regardless of the order in which the updates were made.", "quantifier": "every update sequence, every order of times", "why_tests_cant": "All permutations of unbounded update sequences.", "anchors": ["packages/cw-wormhole/src/lib.rs: load, update, increment, decrement"]}
{"id": "C50", "title": "Stake tracking follows delegations, undelegations and slashes", "statement": "The tracked total at time t equals the amount delegated and not yet unbonded at t (slashes included from the time they happened) for every history of delegate, redelegate, undelegate and slash registrations made in time order.", "quantifier": "every history and time", "why_tests_cant": "Unbounded histories.", "anchors": ["packages/cw-stake-tracker/src/lib.rs"]}
{"id": "C51", "title": "External rewards never promise more than was funded", "statement": "With the staking hook installed, over any history the rewards claimed plus the rewards claimable by all stakers never exceed the rewards funded, so a claim never fails for lack of funds and never takes another staker's reward.", "quantifier": "every history of funding, staking, unstaking and claims over any number of stakers and blocks", "why_tests_cant": "Rounding and timing over unbounded histories.", "anchors": ["contracts/staking/cw20-stake-external-rewards/src/contract.rs: execute_fund, update_rewards, get_reward_per_token, get_rewards_earned, execute_claim"]}
{"id": "C52", "title": "The reward distributor pays at most its rate", "statement": "Over any interval of blocks without owner intervention the rewards forwarded to the staking contract are at most the configured rate times the number of blocks, and equal it when the balance suffices; calling it more often does not change the total. Changing the configuration first pays out what was due under the old configuration.", "quantifier": "every schedule of distribute calls", "why_tests_cant": "All schedules of calls.", "anchors": ["contracts/staking/cw20-stake-reward-distributor/src/contract.rs: get_distribution_msg, execute_distribute, execute_update_config"]}
{"id": "C53", "title": "Fund distribution pays each member exactly their share, once", "statement": "Over any history of claims the amount of each token paid to a member is at most their share of the funded amount and equals its floor after a claim, regardless of how often or in what order members claim; the total paid never exceeds the funded amount.", "quantifier": "every claim schedule, funding history and power distribution", "why_tests_cant": "Claim schedules and powers are unbounded.", "anchors": ["contracts/distribution/cw-fund-distributor/src/contract.rs: instantiate, get_entitlement, get_relative_share, execute_claim_cw20s, execute_claim_natives"]}
{"id": "C54", "title": "The DAO rewards distributor never promises more than was funded", "statement": "For each distribution, over any history in which the voting-power hook fires on every change, the rewards claimed plus claimable by all members plus clawed back never exceed the amount funded.", "quantifier": "every history of funding, emission-rate changes, pausing, withdrawing, power changes and claims", "why_tests_cant": "Unbounded histories with rounding and period truncation.", "anchors": ["contracts/distribution/dao-rewards-distributor/src/contract.rs: execute_fund, execute_claim, execute_withdraw, execute_update", "contracts/distribution/dao-rewards-distributor/src/rewards.rs", "contracts/distribution/dao-rewards-distributor/src/state.rs"]}
{"id": "C55", "title": "Rewards do not depend on how often they are updated", "statement": "Under linear emission, how often anyone triggers a reward update does not reduce what a member earns by more than rounding dust.", "quantifier": "every schedule of updates", "why_tests_cant": "Schedules of third-party calls are unbounded.", "anchors": ["contracts/distribution/dao-rewards-distributor/src/rewards.rs: get_active_total_earned_puvp, update_rewards", "contracts/distribution/dao-rewards-distributor/src/state.rs: Epoch::bump_last_updated"]}
{"id": "C56", "title": "Only active proposal modules and the admin can make the DAO act", "statement": "The DAO dispatches messages only on a call by a registered, enabled proposal module or by the admin; while paused it accepts calls only from itself and the admin; its own configuration, lists, items and modules change only through calls from itself.", "quantifier": "every call by every sender in every state", "why_tests_cant": "All senders, states and histories.", "anchors": ["contracts/dao-dao-core/src/contract.rs: execute, execute_proposal_hook, execute_admin_msgs, execute_update_config, execute_update_proposal_modules"]}
{"id": "C57", "title": "A DAO never loses its last active proposal module", "statement": "After instantiation, at the end of every transaction at least one proposal module is enabled, and the reported active and total module counts equal the number of enabled and of all registered modules.", "quantifier": "every history of module updates", "why_tests_cant": "Unbounded histories of adding and disabling modules.", "anchors": ["contracts/dao-dao-core/src/contract.rs: execute_update_proposal_modules, reply"]}
{"id": "C58", "title": "Admin transfer is two-step", "statement": "The admin changes only by the current admin dropping to the DAO itself, or by the nominated address accepting a nomination made by the admin; nobody else can become admin.", "quantifier": "every history", "why_tests_cant": "All senders and histories.", "anchors": ["contracts/dao-dao-core/src/contract.rs: execute_nominate_admin, execute_accept_admin_nomination, execute_withdraw_admin_nomination"]}
{"id": "C59", "title": "Proposal module prefixes are unique", "statement": "Distinct module indices yield distinct non-empty alphabetic prefixes.", "quantifier": "all indices", "why_tests_cant": "The repository test checks only the first few thousand indices.", "anchors": ["contracts/dao-dao-core/src/contract.rs: derive_proposal_module_prefix"]}
{"id": "C60", "title": "Token swap is atomic", "statement": "Over any history of a swap contract, either both counterparties have provided exactly their promise and each received the other's, or each counterparty can still withdraw exactly what it provided; nobody else can take funds and no funds are paid twice.", "quantifier": "every history of funding and withdrawal attempts by anyone", "why_tests_cant": "All interleavings and senders.", "anchors": ["contracts/external/cw-token-swap/src/contract.rs: do_fund, execute_withdraw, get_counterparty"]}
{"id": "C61", "title": "Token issuance respects allowances", "statement": "Over any history, the amount minted by an address never exceeds the allowances granted to it by the owner, likewise for burning, and only the owner changes allowances.", "quantifier": "every history", "why_tests_cant": "Unbounded histories.", "anchors": ["contracts/external/cw-tokenfactory-issuer/src/execute.rs: mint, burn, set_minter, set_burner"]}
{"id": "C62", "title": "Freeze and denylist block transfers", "statement": "While frozen, a transfer of the managed token is allowed only if the sender or recipient is allowlisted; a denylisted sender or recipient can never transfer; the issuer can never be denylisted.", "quantifier": "every state and transfer", "why_tests_cant": "All states and address pairs.", "anchors": ["contracts/external/cw-tokenfactory-issuer/src/hooks.rs: beforesend_hook", "contracts/external/cw-tokenfactory-issuer/src/helpers.rs", "contracts/external/cw-tokenfactory-issuer/src/execute.rs: freeze, deny, allow"]}
{"id": "C63", "title": "Role NFT weights equal the weights of the tokens held", "statement": "Every member's weight equals the sum of the weights of the role NFTs they hold and the total equals the sum over members.", "quantifier": "every history of mint, burn, transfer and weight updates", "why_tests_cant": "Unbounded histories; a violation needs a transfer followed by another operation.", "anchors": ["contracts/external/cw721-roles/src/contract.rs: execute_mint, execute_burn, execute_transfer, execute_send, execute_update_token_weight"]}
{"id": "C64", "title": "Pagination lists every entry exactly once", "statement": "Fetching pages with a fixed positive limit, each starting after the last key of the previous page, yields every entry of the map exactly once in order, ascending or descending.", "quantifier": "every map and every positive limit", "why_tests_cant": "All maps and limits.", "anchors": ["packages/cw-paginate-storage/src/lib.rs: paginate_map"]}
{"id": "C65", "title": "Multiple-choice ballots: one per voter, power at the start height, immutable without re-voting", "statement": "A multiple-choice vote is accepted only for an existing option of an existing, unexpired proposal, from someone with power at the start height; it sets exactly that voter's ballot; without re-voting a ballot never changes; a re-vote moves exactly the voter's power from the old option to the new one.", "quantifier": "every history", "why_tests_cant": "Unbounded interleavings of votes, proposals and power changes.", "anchors": ["contracts/proposal/dao-proposal-multiple/src/contract.rs: execute_vote, execute_propose"]}
{"id": "C66", "title": "Multiple-choice outcome at expiration", "statement": "At and after expiration a multiple-choice proposal is passed, rejected or vetoed; it is passed only if the quorum is met and one option other than 'none of the above' has strictly more weight than every other, and rejected only if that is not so; it is never reported passed or executed before the minimum voting period is over, and with re-voting it stays open until expiration.", "quantifier": "every history and tally", "why_tests_cant": "All tallies and option counts.", "anchors": ["contracts/proposal/dao-proposal-multiple/src/proposal.rs: current_status, is_passed, is_rejected"]}
{"id": "C67", "title": "Multiple-choice proposals never get stuck", "statement": "With a well-behaved voting module status queries never abort, votes and proposals are refused only for the stated reasons, execute / close / veto are accepted exactly according to the queried status, and once voting and timelock are over a proposal can be executed or closed unless already final.", "quantifier": "every history", "why_tests_cant": "Needs invariants over unbounded histories.", "anchors": ["contracts/proposal/dao-proposal-multiple/src/contract.rs", "contracts/proposal/dao-proposal-multiple/src/proposal.rs"]}
{"id": "C68", "title": "Multiple-choice: failing messages and hooks are contained", "statement": "If the messages of an executed multiple-choice proposal fail, then either the failure is caught, the proposal is marked failed and never dispatched again, or nothing changes; a failing hook receiver is removed and the call succeeds.", "quantifier": "every history and every set of failing receivers", "why_tests_cant": "Combinations of failing sub-messages are unbounded.", "anchors": ["contracts/proposal/dao-proposal-multiple/src/contract.rs: execute_execute, reply"]}
{"id": "C69", "title": "Condorcet: outcomes and acceptance", "statement": "At expiration a Condorcet proposal is passed with choice w exactly when the quorum is met and w beats every other choice, and rejected otherwise; before that (but after the minimum voting period) it is passed or rejected exactly when no remaining ballots can change that; a reported outcome is never overturned; execute and close are accepted exactly when the queried status allows them, and a complete ranking cast in time by a member who has not voted is accepted.", "quantifier": "every history, every number of candidates, every voting power oracle", "why_tests_cant": "Continuations and ballot profiles are unbounded.", "anchors": ["contracts/proposal/dao-proposal-condorcet/src/proposal.rs: Proposal::status", "contracts/proposal/dao-proposal-condorcet/src/contract.rs: execute_vote, execute_execute, execute_close"]}
{"id": "C70", "title": "A staker can always take their stake out", "statement": "In every reachable state of cw20-stake a staker with fewer than 100 open claims can unstake any positive amount up to their staked balance.", "quantifier": "every history and every 128-bit amount", "why_tests_cant": "Only fails for pools above half of the 128-bit range, which tests do not build.", "anchors": ["contracts/staking/cw20-stake/src/contract.rs: execute_unstake", "contracts/staking/cw20-stake/src/math.rs: amount_to_claim"]}
{"id": "C71", "title": "The reported value of a stake is what unstaking it pays, and is always available", "statement": "In every reachable state the StakedValue query of cw20-stake succeeds, and what it reports for an address is exactly what leaves the pool when that address unstakes everything.", "quantifier": "every history and address", "why_tests_cant": "The query multiplies two 128-bit numbers; it fails only for realistic but large balances.", "anchors": ["contracts/staking/cw20-stake/src/contract.rs: query_staked_value, execute_unstake"]}
{"id": "C72", "title": "Token-staked: everybody gets back exactly what they staked, once and not early", "statement": "For every address, coins staked equal coins paid out plus coins in open claims plus current stake; each claim is either open or was collected exactly once, by its owner, not before its release; coins leave the module only through an immediate unstake or a collection by their owner; nobody else's call changes a member's stake or claims; and a member can always unstake (fewer than 100 open claims) and collect what is due.", "quantifier": "every history and address", "why_tests_cant": "Unbounded histories with configuration changes in between.", "anchors": ["contracts/voting/dao-voting-token-staked/src/contract.rs: execute_stake, execute_unstake, execute_claim"]}
{"id": "C73", "title": "Only the DAO administers a staking voting module", "statement": "In the token-staked and the NFT-staked voting module the unbonding period, the active threshold and the hook receivers change only in calls sent by the DAO, and the DAO and the staked asset never change.", "quantifier": "every history and every caller", "why_tests_cant": "Unbounded callers, messages and histories.", "anchors": ["contracts/voting/dao-voting-token-staked/src/contract.rs: execute_update_config, execute_update_active_threshold, execute_add_hook, execute_remove_hook", "contracts/voting/dao-voting-cw721-staked/src/contract.rs: execute_update_config, execute_update_active_threshold, execute_add_hook, execute_remove_hook"]}
{"id": "C74", "title": "The stake tracker counts the validators that hold stake", "statement": "The tracked cardinality at every time equals the number of validators with a non-zero amount bonded or unbonding at that time.", "quantifier": "every history of delegations, redelegations, undelegations and slashes in time order, every time", "why_tests_cant": "Needs particular interleavings of unbonding with new delegations; unbounded histories.", "anchors": ["packages/cw-stake-tracker/src/lib.rs: on_delegate, on_redelegate, on_undelegate, on_bonded_slash, validator_cardinality"]}
{"id": "C75", "title": "Staked vesting tokens can always be undelegated", "statement": "Undelegating from a validator no more than is bonded with it is never refused by the stake tracker.", "quantifier": "every history of delegations and undelegations in time order", "why_tests_cant": "Fails only after particular interleavings of unbonding and delegating.", "anchors": ["packages/cw-stake-tracker/src/lib.rs: on_undelegate, on_delegate", "contracts/external/cw-vesting/src/contract.rs: execute_undelegate"]}
{"id": "C76", "title": "The owner can cancel a vest at any time", "statement": "A call of cancel by the owner of a vest that is not yet cancelled is never refused.", "quantifier": "every history of calls, donations, delegations and slashes before it, every time", "why_tests_cant": "Needs particular donations and delegations by the recipient before the cancellation.", "anchors": ["contracts/external/cw-vesting/src/contract.rs: execute_cancel_vesting_payment", "contracts/external/cw-vesting/src/vesting.rs: cancel, liquid"]}
{"id": "C77", "title": "The reward hook never blocks staking", "statement": "The reward computations of the external rewards contract never overflow: every stake-change hook it receives from the staking contract succeeds and every pending-rewards query answers.", "quantifier": "every history of funding, staking, unstaking and claims, every funded amount and duration the contract accepts", "why_tests_cant": "Overflow only at particular magnitudes of rate, duration and stake.", "anchors": ["contracts/staking/cw20-stake-external-rewards/src/contract.rs: get_reward_per_token, get_rewards_earned, scale_factor, execute_stake_changed"]}
{"id": "C78", "title": "External rewards: the owner sets the terms, between periods", "statement": "End, rate and length of a reward period change only by a call of the owner after the running period has ended, and a funding runs for exactly the set number of blocks from its block at the whole number of tokens per block.", "quantifier": "every state, every message, sender and block", "why_tests_cant": "All messages, senders and states, including fundings through a cw20 token.", "anchors": ["contracts/staking/cw20-stake-external-rewards/src/contract.rs: execute_fund, execute_update_reward_duration"]}
{"id": "C79", "title": "Members can always claim their share of a fund distribution", "statement": "After the funding period a claim by a member, of listed funded tokens or of all tokens, is never refused.", "quantifier": "every funding history by anyone, every claim schedule and power distribution", "why_tests_cant": "Depends on who funded what before and on the order of claims.", "anchors": ["contracts/distribution/cw-fund-distributor/src/contract.rs: execute_claim_all, execute_claim_cw20s, execute_claim_natives, execute_fund_cw20"]}
{"id": "C80", "title": "The rewards distributor's balance is exactly what its distributions have not paid", "statement": "For every token, the distributor holds what was sent to it without a call plus, for each distribution of that token, the funding minus what was claimed and withdrawn.", "quantifier": "every history, every number of distributions sharing a token", "why_tests_cant": "Sums over all distributions and all histories.", "anchors": ["contracts/distribution/dao-rewards-distributor/src/contract.rs: execute_fund, execute_claim, execute_withdraw, execute_create"]}
{"id": "C81", "title": "Only the owner sets the terms of a distribution or takes funds back", "statement": "Denomination, emission rate, voting-power contract, hook caller, openness and withdraw destination of a distribution change only in calls by the owner; tokens leave only to a claimer or, in a withdrawal by the owner, exactly the undistributed rest to the withdraw destination.", "quantifier": "every call by every sender in every state", "why_tests_cant": "All senders, states and messages.", "anchors": ["contracts/distribution/dao-rewards-distributor/src/contract.rs: execute_create, execute_update, execute_withdraw, execute_claim"]}
{"id": "C82", "title": "The DAO comes to own the role tokens its voting module creates", "statement": "After dao-voting-cw721-roles has created its token contract and nominated the DAO, the DAO can accept the ownership and then mint, burn and change roles; nobody else can.", "quantifier": "every set-up and every later history", "why_tests_cant": "All later histories by all senders; the test suite mints only before or as the first owner.", "anchors": ["contracts/voting/dao-voting-cw721-roles/src/contract.rs: reply", "contracts/external/cw721-roles/src/contract.rs: execute"]}
{"id": "C83", "title": "Membership hooks of role tokens tell the true weights", "statement": "Whenever the weight of a member changes, every registered hook is told once, with the weight before and the weight after.", "quantifier": "every call in every history", "why_tests_cant": "All histories of mint, burn, weight changes and transfers.", "anchors": ["contracts/external/cw721-roles/src/contract.rs: execute_mint, execute_burn, execute_update_token_weight"]}
{"id": "C84", "title": "Role voting powers add up to the total at every height", "statement": "At every height the voting powers of all accounts add up to the total power, and the powers at a height do not change once the block has begun.", "quantifier": "every history, account and height", "why_tests_cant": "All histories and heights, including several changes in one block and members removed and added again.", "anchors": ["contracts/voting/dao-voting-cw721-roles/src/contract.rs: query_voting_power_at_height, query_total_power_at_height", "contracts/external/cw721-roles/src/contract.rs: query_member, query_total_weight"]}
{"id": "C85", "title": "ONFT voting power is the number of tokens staked, adds up, and the past is fixed", "statement": "In dao-voting-onft-staked a member's voting power at a height is the number of tokens they had staked when that block began; the powers of all members add up to the total at every height; powers at past heights never change.", "quantifier": "every history of prepare, confirm, cancel, unstake and claim calls, token transfers at the chain, every account and height", "why_tests_cant": "All interleavings with cancellations by the DAO and all heights; the tests cancel only stakes that were not confirmed.", "anchors": ["contracts/voting/dao-voting-onft-staked/src/contract.rs: execute_confirm_stake, execute_cancel_stake, execute_unstake", "contracts/voting/dao-voting-onft-staked/src/state.rs: register_staked_nfts, register_unstaked_nfts"]}
{"id": "C86", "title": "Staked ONFTs are held for one member, who gets them back", "statement": "A token that is staked or waiting to be claimed is owned by dao-voting-onft-staked and counted for exactly one member; that member can unstake it, and collect it when the unbonding period is over; every token staked is returned at most once.", "quantifier": "every history, token and member", "why_tests_cant": "All histories, among them a DAO cancelling the stake of a staked token.", "anchors": ["contracts/voting/dao-voting-onft-staked/src/contract.rs: execute_cancel_stake, execute_unstake, execute_claim_nfts"]}
{"id": "C87", "title": "An ONFT is staked by, and returned to, the account that brought it", "statement": "Only the account that prepared a token while owning it and moved it to dao-voting-onft-staked can confirm the stake or take it back by cancelling; besides that only unstaking, due claims and the DAO's cancellations send tokens away.", "quantifier": "every history of preparations, transfers at the chain, confirmations and cancellations", "why_tests_cant": "All interleavings of preparations by successive owners with transfers at the chain.", "anchors": ["contracts/voting/dao-voting-onft-staked/src/contract.rs: execute_prepare_stake, execute_confirm_stake, execute_cancel_stake"]}
{"id": "C88", "title": "The DAO's records say what the DAO last said", "statement": "At every moment the value of every item, membership of every address in the cw20 and cw721 lists, every subDAO with its charter, the configuration and the voting module are determined by the last call about them, the initial values counting first; in one call removals from token lists win over additions and subDAO additions over removals. The DAO's own calls work also while it is paused.", "quantifier": "every history of the DAO, including calls arriving in the middle of its transactions", "why_tests_cant": "All histories and keys; tests check single updates.", "anchors": ["contracts/dao-dao-core/src/contract.rs: execute_set_item, execute_remove_item, execute_update_cw20_list, execute_update_cw721_list, execute_update_sub_daos_list, execute_update_config, reply, execute"]}
{"id": "C89", "title": "Every payroll contract is made as ordered, funded and listed once", "statement": "Each vesting contract made by cw-payroll-factory has the terms of the order, the order's owner as admin and owner, runs the code id set at the time and, in a native coin or a standard cw20 token, is funded in full when the call ends; the list holds exactly the contracts made, each once, under the account that ordered it and its recipient. Whatever happened before, an order with acceptable terms and the money for it succeeds.", "quantifier": "every history of orders in native coins, cw20 tokens and tokens that misbehave", "why_tests_cant": "All histories and terms, across the sub-message, its reply and the funding message.", "anchors": ["contracts/external/cw-payroll-factory/src/contract.rs: execute_receive_cw20, instantiate_contract, reply, query", "contracts/external/cw-payroll-factory/src/state.rs"]}
{"id": "C90", "title": "The owner's payroll factory serves the owner, with the money sent", "statement": "If the factory has an owner, only the owner has vesting contracts made; every contract is funded with the tokens sent along with its order, all of them, and the factory keeps nothing; only the owner changes the code id and hands over the factory.", "quantifier": "every history and caller", "why_tests_cant": "Callers that pose as tokens and orders in another token than the one sent.", "anchors": ["contracts/external/cw-payroll-factory/src/contract.rs: execute_receive_cw20, execute_instantiate_native_payroll_contract, instantiate_contract, reply, execute_update_code_id"]}
{"id": "C91", "title": "Contracts made by the admin factory are their own admin, at the address expected", "statement": "If cw-admin-factory has an admin, only the admin has contracts made; every contract made is its own admin; if the caller of the second message gives an address to expect, the contract is made at that address or the call fails, and without one no address is refused.", "quantifier": "every history, including contracts that call the factory while they are being made", "why_tests_cant": "Calls nested in the instantiation share the one slot for the expected address.", "anchors": ["contracts/external/cw-admin-factory/src/contract.rs: instantiate_contract, instantiate2_contract, reply"]}
{"id": "C92", "title": "cw20 voting power is the stake, backed by tokens, and the DAO sets the threshold", "statement": "In dao-voting-cw20-staked the powers of all accounts at a height add up to the total, are what was staked when that block began and never change afterwards; stakes are covered by tokens of the DAO's token that the staking contract holds; a stake changes only by its owner staking or unstaking; only the DAO changes the active threshold, to one that can be met by the supply at the time; a new token is distributed as listed with the DAO as minter, and a new staking contract belongs to the DAO and stakes that token.", "quantifier": "every set-up and every history of token, staking and voting module calls", "why_tests_cant": "Three contracts interleaved over all histories, with set-ups of any initial balances.", "anchors": ["contracts/voting/dao-voting-cw20-staked/src/contract.rs: instantiate, reply, execute_update_active_threshold, query_voting_power_at_height, query_total_power_at_height", "contracts/staking/cw20-stake/src/contract.rs: execute_stake, execute_unstake"]}
{"id": "C93", "title": "An accepted cw20 active threshold can be met by staking tokens", "statement": "dao-voting-cw20-staked reports active exactly when the tokens staked reach the count or the percentage of the supply, and a DAO with an accepted threshold becomes active when everybody stakes all their tokens.", "quantifier": "every history with any funding, minting, burning and transfers", "why_tests_cant": "The supply and the value of a stake drift apart over histories; being stuck is a statement about all futures.", "anchors": ["contracts/voting/dao-voting-cw20-staked/src/contract.rs: query_is_active, assert_valid_absolute_count_threshold, instantiate", "contracts/staking/cw20-stake/src/contract.rs: execute_fund"]}
{"id": "C94", "title": "cw4 voting powers add up, stay fixed in the past, and only the group's admin sets them", "statement": "In dao-voting-cw4 the powers of all accounts at a height add up to the total, are the weights at the start of that block and never change afterwards; the weight of an account is the one last given to it by the group's admin and zero after removal; a new group has the listed weights and belongs to the DAO, and until the DAO names another admin nobody else changes it; lists with duplicates, no members or no weight are refused.", "quantifier": "every set-up and every history of calls to the group", "why_tests_cant": "Unbounded lists of members changed over unbounded histories.", "anchors": ["contracts/voting/dao-voting-cw4/src/contract.rs: instantiate, query_voting_power_at_height, query_total_power_at_height, execute"]}
{"id": "C95", "title": "A DAO set up with a cw4 group has voting power", "statement": "After dao-voting-cw4 is set up, the DAO has positive total voting power, some member has power, and the membership is under the DAO's control.", "quantifier": "every new and every existing group", "why_tests_cant": "Existing groups may have any history.", "anchors": ["contracts/voting/dao-voting-cw4/src/contract.rs: instantiate"]}
{"id": "C96", "title": "Electorates on groups, role tokens and ONFTs cannot be manipulated after a proposal starts", "statement": "For the single-choice, multiple-choice and Condorcet modules on dao-voting-cw4, dao-voting-cw721-roles and dao-voting-onft-staked: changes of members, tokens or stakes at or after the block in which a proposal is created change neither a voter's power on it nor its total power; ballots add up to the tallies, which are bounded by the total power; decided proposals stay decided.", "quantifier": "every interleaving of calls to the voting module's contracts and the proposal module", "why_tests_cant": "Interleavings of two contracts across blocks are unbounded.", "anchors": ["contracts/voting/dao-voting-cw4/src/contract.rs: query_voting_power_at_height, query_total_power_at_height", "contracts/voting/dao-voting-cw721-roles/src/contract.rs: query_voting_power_at_height, query_total_power_at_height", "contracts/voting/dao-voting-onft-staked/src/contract.rs: query_voting_power_at_height, query_total_power_at_height", "packages/dao-voting/src/voting.rs: get_voting_power, get_total_power"]}
{"id": "C97", "title": "The first migration of the single-choice module carries everything over", "statement": "dao-proposal-single accepts FromV1 exactly from its chain admin, to another version, with a configuration of version one for which the veto given is valid, and without outstanding deposits. It then has every proposal of version one with the same proposer, dates, thresholds, power, messages, status and tallies, no veto, the same configuration, ballots, count and hooks. Proposals that version one executed or closed are never executed, and no proposal of version one can be vetoed, in any later history of calls and migrations.", "quantifier": "every store of version one and every history of calls and migrations after it", "why_tests_cant": "Stores of version one are unbounded; histories too.", "anchors": ["contracts/proposal/dao-proposal-single/src/contract.rs: migrate", "contracts/proposal/dao-proposal-single/src/v1_state.rs"]}
{"id": "C98", "title": "Upgrades of the single-choice module never undo what happened since", "statement": "After an upgrade of dao-proposal-single a proposal that was executed, closed or failed stays so, none is executed twice, and the configuration stays as the DAO set it.", "quantifier": "every history of calls and migrations", "why_tests_cant": "The damage needs a second upgrade long after the first, which tests of migrations do not run.", "anchors": ["contracts/proposal/dao-proposal-single/src/contract.rs: migrate"]}
{"id": "C99", "title": "The first migration of the DAO core takes over the proposal modules", "statement": "dao-dao-core accepts FromV1 from its chain admin to another version. Its proposal modules are then exactly those of version one, all enabled, with the prefixes A, B, ... in order of their addresses; both counts are their number; everything but modules and configuration is as before; the migrator asked for is created next.", "quantifier": "every store of version one", "why_tests_cant": "The number of modules is unbounded.", "anchors": ["contracts/dao-dao-core/src/contract.rs: migrate, derive_proposal_module_prefix"]}
{"id": "C100", "title": "Modules of an upgraded DAO keep their state, prefixes and count", "statement": "After upgrades of dao-dao-core the module counts are right, prefixes are unique, one module at least is enabled, and a module that was disabled stays disabled.", "quantifier": "every history of calls, replies and migrations", "why_tests_cant": "Needs a second upgrade after modules were exchanged.", "anchors": ["contracts/dao-dao-core/src/contract.rs: migrate, execute_update_proposal_modules, reply"]}
{"id": "C101", "title": "Migrations of the staking contracts keep stakes and rewards", "statement": "cw20-stake, cw20-stake-external-rewards and cw20-stake-reward-distributor accept a migration exactly from the chain admin, to another version, if version one's configuration is there; contracts made by this version refuse for ever. A migration changes owner and settings to version one's and nothing else. Stakes stay covered, past powers fixed and the token the same through every history of calls and migrations of cw20-stake.", "quantifier": "every history of calls and migrations", "why_tests_cant": "Unbounded histories.", "anchors": ["contracts/staking/cw20-stake/src/contract.rs: migrate", "contracts/staking/cw20-stake-external-rewards/src/contract.rs: migrate", "contracts/staking/cw20-stake-reward-distributor/src/contract.rs: migrate"]}
{"id": "C102", "title": "Upgrades of the staking contracts keep owner and settings", "statement": "An upgrade of cw20-stake, cw20-stake-external-rewards or cw20-stake-reward-distributor changes neither the owner nor the settings in force.", "quantifier": "every history of calls and migrations", "why_tests_cant": "Needs a second upgrade after a change of owner.", "anchors": ["contracts/staking/cw20-stake/src/contract.rs: migrate", "contracts/staking/cw20-stake-external-rewards/src/contract.rs: migrate", "contracts/staking/cw20-stake-reward-distributor/src/contract.rs: migrate"]}
{"id": "C103", "title": "The DAO acts only on authority", "statement": "Every message a DAO with a single-choice module carries out was put there by: a proposal of the module whose votes, being the powers of its voters at its start, meet its threshold; the admin; another enabled module; or a module just created. A proposal's messages are carried out together, in order, at most once, and never while the DAO is paused.", "quantifier": "every interleaving of calls by outsiders with the messages of the DAO and the module", "why_tests_cant": "Needs all re-entrant histories of two contracts.", "anchors": ["contracts/dao-dao-core/src/contract.rs: execute_proposal_hook, execute_admin_msgs, reply", "contracts/proposal/dao-proposal-single/src/contract.rs: execute_execute"]}
{"id": "C104", "title": "A sovereign DAO is ruled by its proposals alone", "statement": "If a DAO is its own admin and has one enabled module, every message it carries out stems from a passed proposal of that module, and its items, config, modules, admin, pause and the module's config change only by such messages; until a proposal is carried out nothing of this changes.", "quantifier": "every history in which the proposals carried out nominate no admin and create no modules", "why_tests_cant": "A claim about all histories of two contracts and arbitrary outsiders.", "anchors": ["contracts/dao-dao-core/src/contract.rs: execute", "contracts/proposal/dao-proposal-single/src/contract.rs: execute"]}
{"id": "C105", "title": "A passed proposal can be carried out", "statement": "Whoever may execute a passed proposal can do so and the DAO gets all its messages; nobody else can prevent it from ever being carried out.", "quantifier": "every reachable state of DAO and module", "why_tests_cant": "Needs the pause of one contract together with the failure handling of the other.", "anchors": ["contracts/proposal/dao-proposal-single/src/contract.rs: execute_execute, reply", "contracts/dao-dao-core/src/contract.rs: execute, execute_proposal_hook"]}
{"id": "C106", "title": "An upgrade by the migrator is complete and exact", "statement": "Only the DAO can start the upgrade of its modules to version two. If it succeeds, exactly the voting module, the staking contract of a token voting module, and all proposal modules besides the migrator have been migrated, each once, from the named old code to the named new code and each proposal module with the parameters given for it; the migrator is disabled, at least one other module stays enabled, the SubDAOs named are added, and nothing else of the DAO changes.", "quantifier": "every DAO, migrator, message and every behaviour of the migrated contracts", "why_tests_cant": "Depends on every combination of modules and parameters; tests fix a few.", "anchors": ["contracts/external/dao-migrator/src/contract.rs: execute_migration_v1_v2, reply", "contracts/external/dao-migrator/src/types.rs: ModulesAddrs::verify"]}
{"id": "C107", "title": "A successful upgrade keeps the DAO's data", "statement": "After a successful upgrade every module has the proposals, votes, count, hooks and configuration of before, with the close and veto settings and the pre-propose module asked for, no deposit of version one is outstanding, and all voting powers are as before.", "quantifier": "every successful upgrade", "why_tests_cant": "The contract compares a sample; the claim is about all data.", "anchors": ["contracts/external/dao-migrator/src/contract.rs: query_state_v1, query_state_v2, test_state", "contracts/external/dao-migrator/src/utils/state_queries.rs", "contracts/proposal/dao-proposal-single/src/contract.rs: migrate"]}
{"id": "C108", "title": "A DAO of version one can be upgraded", "statement": "A DAO with a known voting module whose proposal modules all run the old code, is not paused and whose contracts migrate and answer as before can be upgraded with the right message.", "quantifier": "every DAO and every chain around it", "why_tests_cant": "An existence claim over all DAOs.", "anchors": ["contracts/external/dao-migrator/src/contract.rs: execute_migration_v1_v2", "contracts/external/dao-migrator/src/utils/state_queries.rs: query_proposal_v1"]}
{"id": "C109", "title": "A fan token belongs to the DAO from the start", "statement": "A fan token made by the factory has the DAO of the calling voting module as minter and authority, the initial balances given (the DAO's own included) and no others, within its maximal supply; the factory keeps no right over it and nothing of the creation is left behind. Initial balances cannot be empty.", "quantifier": "every call of the factory and every history of other messages to the chain", "why_tests_cant": "Tests need the chain's module and cover single tokens.", "anchors": ["contracts/external/btsg-ft-factory/src/contract.rs: execute_issue, reply", "contracts/external/btsg-ft-factory/src/msg.rs: NewFanToken"]}
{"id": "C110", "title": "Denominations are checked by the SDK's rule and move exactly", "statement": "A native denomination is accepted exactly if it matches [a-zA-Z][a-zA-Z0-9/:._-]{2,127}, a cw20 one exactly if its address is valid and answers as a token; a transfer message moves exactly the amount of that asset from sender to recipient and is refused for zero or more than the balance.", "quantifier": "every string, address, amount and state of balances", "why_tests_cant": "All byte strings up to and beyond 128 bytes.", "anchors": ["packages/cw-denom/src/lib.rs: validate_native_denom, into_checked, get_transfer_to_message, query_balance, is_native, is_cw20"]}
{"id": "C111", "title": "Upgrading a pre-propose module keeps who may propose and every deposit", "statement": "A pre-propose module is upgraded exactly from a release 2.4.x with x at least 1, by the one message for it, with no policy or a sound one. If none is given the same accounts may propose as before; a given one is in force. The deposit terms, recorded deposits, submissions, hooks and addresses are kept, deposits taken before are paid out by their terms afterwards, and the upgrade cannot be repeated.", "quantifier": "every store, message, account, voting power and recorded deposit", "why_tests_cant": "All versions, policies and stores.", "anchors": ["packages/dao-pre-propose-base/src/execute.rs: migrate", "packages/dao-pre-propose-base/src/msg.rs: MigrateMsg", "contracts/pre-propose/*/src/contract.rs: migrate"]}
{"id": "C112", "title": "A contract's record of its version is true and never goes back", "statement": "After a successful migration to newer code the recorded name and version are those of that code, and a migration to older code leaves the record of the newer version or is refused.", "quantifier": "every recorded name and version", "why_tests_cant": "All pairs of version numbers; tests use adjacent versions of one digit.", "anchors": ["contracts/voting/dao-voting-cw4/src/contract.rs: migrate", "contracts/voting/dao-voting-cw20-staked/src/contract.rs: migrate", "contracts/voting/dao-voting-token-staked/src/contract.rs: migrate", "contracts/external/cw-tokenfactory-issuer/src/contract.rs: migrate", "contracts/distribution/dao-rewards-distributor/src/contract.rs: migrate"]}
{"id": "C113", "title": "A multiple-choice proposal's deposit is returned at most once, to the right party", "statement": "For every proposal created through dao-pre-propose-multiple with a deposit, over any history of that module and its dao-proposal-multiple module the deposit is paid back at most once, whole and in the token taken, to the proposer or the DAO as the refund policy recorded with it and the proposal's final status say; it is paid when the module handles the completion. The only other payments are the DAO's own withdrawals to itself.", "quantifier": "every history of the combined modules and every refund policy", "why_tests_cant": "Single payout relies on a property of another contract's whole history.", "anchors": ["contracts/pre-propose/dao-pre-propose-multiple/src/contract.rs: execute", "packages/dao-pre-propose-base/src/execute.rs: execute_proposal_completed_hook, execute_withdraw", "contracts/proposal/dao-proposal-multiple/src/contract.rs: execute_execute, execute_close, execute_veto"]}
{"id": "C114", "title": "A multiple-choice proposal is submitted only by whom the policy allows, for the full deposit, as sent", "statement": "Every committed submission to dao-pre-propose-multiple was allowed by the policy of the time, brought in exactly the configured deposit and recorded it for good with its payer; it made exactly the next proposal, by the sender and with the options sent followed by none of the above. Wrong coins are refused and a failing transfer undoes everything. Only the DAO changes policy and deposit, and the lists stay disjoint with someone able to submit.", "quantifier": "every history of the combined modules, every submission and payment", "why_tests_cant": "All histories, policies and payments.", "anchors": ["contracts/pre-propose/dao-pre-propose-multiple/src/contract.rs: execute", "packages/dao-pre-propose-base/src/execute.rs: execute_propose, check_can_submit, execute_update_config, execute_update_submission_policy", "contracts/proposal/dao-proposal-multiple/src/contract.rs: execute_propose", "packages/dao-voting/src/multiple_choice.rs: into_checked"]}
{"id": "C115", "title": "A reward distribution never stands in the way of a stake change", "statement": "A report of a stake change by a registered hook caller of dao-rewards-distributor is always accepted, whatever members it names and however many distributions it concerns; the rewards of a member can always be asked for. (Voting modules send the report without a reply, so a refused report undoes the stake change: the member could neither stake nor leave.)", "quantifier": "every history of the distributor, every registered hook caller, every list of members", "why_tests_cant": "The arithmetic is 256-bit; whether it overflows depends on the whole history of fundings and powers.", "anchors": ["contracts/distribution/dao-rewards-distributor/src/hooks.rs: execute_stake_changed, execute_membership_changed, execute_nft_stake_changed", "contracts/distribution/dao-rewards-distributor/src/rewards.rs: update_rewards, get_active_total_earned_puvp, get_accrued_rewards_not_yet_accounted_for", "packages/dao-hooks/src/stake.rs: stake_hook_msgs, unstake_hook_msgs"]}
{"id": "C116", "title": "A DAO that makes its own token gets exactly the token asked for and can be governed with it", "statement": "When dao-voting-token-staked is set up with a new token, the set-up succeeds exactly when the message asks for something possible (somebody listed, nobody for nothing, sums within 128 bits, a threshold those listed can meet). Then every account holds exactly what the message lists for it, the DAO what it reserved, nothing else exists; nobody keeps an allowance, nothing is frozen or listed; the module stakes this very token; the DAO, and only it, owns the issuer; everyone listed can stake; and the active threshold can be met by those who are not the DAO.", "quantifier": "every set-up message, every DAO, module and issuer, at creation of the DAO and at an exchange of its voting module", "why_tests_cant": "All lists of holders, sums and thresholds; the tests use a few fixed set-ups.", "anchors": ["contracts/voting/dao-voting-token-staked/src/contract.rs: instantiate, reply", "contracts/external/cw-tokenfactory-issuer/src/contract.rs: instantiate, execute", "packages/dao-voting/src/threshold.rs: assert_valid_absolute_count_threshold", "contracts/dao-dao-core/src/contract.rs: reply"]}
{"id": "C117", "title": "Rewards for stakes in the token module stay within their funding, and never stand in the way of members", "statement": "When a distribution of dao-rewards-distributor is about stakes in dao-voting-token-staked, everything claimed, withdrawn and claimable stays within what was paid in, whatever members stake, unstake and claim, and in whatever order; whoever is shown rewards can claim them; and a member can always stake and unstake, since the distributor accepts the module's report. This holds however the distributor and the module are connected.", "quantifier": "every history of calls to both contracts, with any number of distributions, hooks and members", "why_tests_cant": "Every interleaving of stakes, reports, funding and claims over any number of blocks; the tests try a few scripts.", "anchors": ["contracts/voting/dao-voting-token-staked/src/contract.rs: execute_stake, execute_unstake, execute_add_hook", "packages/dao-hooks/src/stake.rs: stake_hook_msgs, unstake_hook_msgs", "contracts/distribution/dao-rewards-distributor/src/hooks.rs: execute_stake_changed", "contracts/distribution/dao-rewards-distributor/src/rewards.rs: update_rewards"]}
{"id": "C118", "title": "Tokens staked in a DAO with a token of its own are there for those who staked them", "statement": "Whatever is done with the issuer of the token (minting, burning, freezing, lists, forced transfers, changes of hook, admin or owner), the staking module holds every staked and every unbonding token, a member can take out a stake and collect what is due, and nobody's voting power changes by it.", "quantifier": "every history of calls to the staking module, the issuer and the bank by anybody, for every set-up", "why_tests_cant": "All interleavings of stakes, mints, burns, forced transfers, freezes and exits; tests check each contract by itself.", "anchors": ["contracts/voting/dao-voting-token-staked/src/contract.rs: execute_stake, execute_unstake, execute_claim", "contracts/external/cw-tokenfactory-issuer/src/execute.rs: burn, force_transfer, freeze, deny, set_before_send_hook", "contracts/external/cw-tokenfactory-issuer/src/hooks.rs: beforesend_hook"]}
{"id": "C119", "title": "A DAO acts only with enough holdings behind it", "statement": "When the DAO is given the messages of a proposal, what the yes voters held when the proposal's first block began meets the proposal's threshold, whatever they hold since; and members who hold too little for the threshold in every block, with everybody else voting no or not at all, cannot make a DAO that is its own admin do anything or change any of its settings.", "quantifier": "every history of the DAO, its single-choice module and its voting module, of any of the six kinds, with calls by anybody and messages of the DAO to all of them; every coalition", "why_tests_cant": "The claim ties stakes in one contract to acts of another over all interleavings of staking, voting and execution.", "anchors": ["contracts/proposal/dao-proposal-single/src/contract.rs: execute_propose, execute_vote, execute_execute", "contracts/dao-dao-core/src/contract.rs: execute_proposal_hook", "packages/dao-voting/src/voting.rs: get_voting_power, does_vote_count_pass", "contracts/voting/dao-voting-token-staked/src/contract.rs: query_voting_power_at_height"]}
{"id": "C120", "title": "A DAO's own NFT collection", "statement": "A DAO set up with an NFT collection of its own owns it: only it can mint, as long as it does not hand it on, and the collection holds exactly the tokens asked for. Every staked token is the module's and can be moved by nobody, it leaves only for whoever staked it, every vote stands for one such token, and members can always get theirs back.", "quantifier": "every list of set-up messages, with anything their receivers do meanwhile; every later history of calls by anybody to the collection (mint, transfer, send, approve, revoke, operators, burn, ownership) and to the module", "why_tests_cant": "The set-up messages are arbitrary and are sent in the name of the module that will hold the tokens; the claim is about everything that can follow.", "anchors": ["contracts/voting/dao-voting-cw721-staked/src/contract.rs: instantiate, reply, execute_stake, execute_unstake, execute_claim_nfts", "contracts/voting/dao-voting-cw721-staked/src/state.rs: register_staked_nft"]}
{"id": "C121", "title": "A DAO with multiple-choice proposals acts only on authority", "statement": "Every message a DAO with a multiple-choice module carries out was put there by: the option of a proposal that has strictly more votes than every other, is not 'none of the above' and whose quorum is met, votes being the powers of the voters at the proposal's start; the admin; another enabled module; or a module just created. The option's messages are carried out together, in order, at most once per proposal, and never while the DAO is paused; votes cast between execution and carrying out cannot change the winner.", "quantifier": "every interleaving of calls by outsiders with the messages of the DAO and the module", "why_tests_cant": "Needs all re-entrant histories of two contracts, with votes cast during execution.", "anchors": ["contracts/dao-dao-core/src/contract.rs: execute_proposal_hook, execute_admin_msgs, reply", "contracts/proposal/dao-proposal-multiple/src/contract.rs: execute_execute, execute_vote"]}
{"id": "C122", "title": "A sovereign DAO is ruled by its winning options alone", "statement": "If a DAO is its own admin and a multiple-choice module is its one enabled module, every message it carries out stems from the winning option of a passed proposal of that module, and its items, config, modules, admin, pause and the module's config change only by such messages; until an option is carried out nothing of this changes.", "quantifier": "every history in which the options carried out nominate no admin and create no modules", "why_tests_cant": "A claim about all histories of two contracts and arbitrary outsiders.", "anchors": ["contracts/dao-dao-core/src/contract.rs: execute", "contracts/proposal/dao-proposal-multiple/src/contract.rs: execute"]}
{"id": "C123", "title": "A chosen option can be carried out", "statement": "Whoever may execute a passed multiple-choice proposal can do so and the DAO gets all messages of the winning option; nobody without voting power can prevent it from ever being carried out.", "quantifier": "every reachable state of DAO and module", "why_tests_cant": "Needs the pause of one contract together with the failure handling of the other.", "anchors": ["contracts/proposal/dao-proposal-multiple/src/contract.rs: execute_execute, reply", "contracts/dao-dao-core/src/contract.rs: execute, execute_proposal_hook"]}
{"id": "C124", "title": "A multiple-choice DAO acts only with enough holdings behind it", "statement": "When the DAO is given the messages of an option, what its voters held when the proposal's first block began is more than what the voters of any other option held, the option is not 'none of the above', and what all voters held meets the quorum, whatever they hold since; and members who hold too little for the quorum in every block, with everybody else voting for none of the options or not at all, cannot make a DAO that is its own admin do anything or change any of its settings. The voting module is called only by outsiders and by messages of the DAO.", "quantifier": "every history of the DAO, its multiple-choice module and its voting module, of any of the six kinds, with calls by anybody and messages of the DAO to all of them; every coalition", "why_tests_cant": "The claim ties stakes in one contract to acts of another over all interleavings of staking, voting and execution.", "anchors": ["contracts/proposal/dao-proposal-multiple/src/contract.rs: execute_propose, execute_vote, execute_execute", "contracts/proposal/dao-proposal-multiple/src/proposal.rs: calculate_vote_result, is_passed", "contracts/dao-dao-core/src/contract.rs: execute_proposal_hook", "packages/dao-voting/src/voting.rs: get_voting_power, get_total_power"]}
{"id": "C125", "title": "A DAO with Condorcet proposals acts only on authority", "statement": "Every message a DAO with a Condorcet module carries out was put there by: the option of a proposal that beats every other option in pairwise comparison of the rankings cast, weighed by the voters' powers at the proposal's start, the voters together meeting the quorum; the admin; another enabled module; or a module just created. The option's messages are carried out together, in order, at most once per proposal, and never while the DAO is paused; rankings cast between execution and carrying out cannot change the winner.", "quantifier": "every interleaving of calls by outsiders with the messages of the DAO and the module", "why_tests_cant": "Needs all re-entrant histories of two contracts, with votes cast during execution.", "anchors": ["contracts/dao-dao-core/src/contract.rs: execute_proposal_hook, execute_admin_msgs, reply", "contracts/proposal/dao-proposal-condorcet/src/contract.rs: execute_execute, execute_vote"]}
{"id": "C126", "title": "A sovereign DAO is ruled by its Condorcet winners alone", "statement": "If a DAO is its own admin and a Condorcet module is its one enabled module, every message it carries out stems from the winning option of a passed proposal of that module, and its items, config, modules, admin, pause and the module's config change only by such messages; until an option is carried out nothing of this changes.", "quantifier": "every history in which the options carried out nominate no admin and create no modules", "why_tests_cant": "A claim about all histories of two contracts and arbitrary outsiders.", "anchors": ["contracts/dao-dao-core/src/contract.rs: execute", "contracts/proposal/dao-proposal-condorcet/src/contract.rs: execute"]}
{"id": "C127", "title": "A Condorcet winner can be carried out", "statement": "Every member with power at the start of a passed Condorcet proposal can execute it and the DAO gets all messages of the winning option; the proposal stays passed until a member executes it; no single member can prevent it from ever being carried out.", "quantifier": "every reachable state of DAO and module", "why_tests_cant": "Needs the pause of one contract together with the failure handling of the other.", "anchors": ["contracts/proposal/dao-proposal-condorcet/src/contract.rs: execute_execute, reply", "contracts/proposal/dao-proposal-condorcet/src/proposal.rs: set_executed", "contracts/dao-dao-core/src/contract.rs: execute, execute_proposal_hook"]}
{"id": "C128", "title": "A Condorcet DAO acts only with the holdings behind it", "statement": "Whatever voting module the DAO has, the option of a Condorcet proposal whose messages it carries out is preferred to every other option by more holdings than prefer the other to it, and those who ranked the options hold together enough for the quorum, each ranking counting for what its voter held when the block of the proposal began (as of the end of the block before); the voting module changes only by calls from outside or messages of the DAO. A sovereign DAO carries out nothing and does not change while everybody outside a group puts \"none of the above\" first and the group is too small for the quorum.", "quantifier": "every history of DAO, Condorcet module and voting module, for six voting modules", "why_tests_cant": "Joins three contracts over all histories, with stakes moving between proposal, vote and execution.", "anchors": ["contracts/proposal/dao-proposal-condorcet/src/contract.rs: execute_propose, execute_vote, execute_execute", "contracts/proposal/dao-proposal-condorcet/src/tally.rs: winner", "contracts/dao-dao-core/src/contract.rs: execute_proposal_hook", "contracts/voting/*/src/contract.rs: query_voting_power_at_height"]}
{"id": "C129", "title": "Deposits are settled", "statement": "A pre-propose module holds at least the deposits it has taken and not paid out, so the completion hook of a proposal never fails, the module stays installed, and every proposal made through it has a record whose deposit is paid out exactly once when the proposal ends, to the party its refund policy names, and not before.", "quantifier": "every history of a proposal module (with any past) and its pre-propose module (dao-pre-propose-single or dao-pre-propose-approval-single), with all the tokens the latter holds", "why_tests_cant": "A balance invariant over all interleavings of deposits, refunds, nested executions and failures; the completion hook runs after messages that may themselves call the modules.", "anchors": ["packages/dao-pre-propose-base/src/execute.rs: execute_propose, execute_withdraw, execute_proposal_completed_hook", "packages/dao-voting/src/deposit.rs: check_native_deposit_paid, get_return_deposit_message", "contracts/pre-propose/dao-pre-propose-approval-single/src/contract.rs: execute_approve, execute_reject", "contracts/proposal/dao-proposal-single/src/contract.rs: execute_execute, execute_close, execute_veto, reply", "packages/dao-hooks/src/proposal.rs: proposal_completed_hooks"]}
{"id": "C130", "title": "Deposits of multiple-choice proposals are settled", "statement": "A pre-propose module for multiple-choice proposals holds at least the deposits it has taken and not paid out, so the completion hook of a proposal never fails, the module stays installed, and every proposal made through it has a record whose deposit is paid out exactly once when the proposal ends, to the party its refund policy names, and not before.", "quantifier": "every history of a dao-proposal-multiple module (with any past) and its dao-pre-propose-multiple module, with all the tokens the latter holds", "why_tests_cant": "A balance invariant over all interleavings of deposits, refunds, nested executions and failures; the completion hook runs after messages that may themselves call the modules.", "anchors": ["contracts/pre-propose/dao-pre-propose-multiple/src/contract.rs: execute", "packages/dao-pre-propose-base/src/execute.rs: execute_propose, execute_withdraw, execute_proposal_completed_hook", "packages/dao-voting/src/deposit.rs: check_native_deposit_paid, get_return_deposit_message", "contracts/proposal/dao-proposal-multiple/src/contract.rs: execute_execute, execute_close, execute_veto, reply", "packages/dao-hooks/src/proposal.rs: proposal_completed_hooks"]}
{"id": "C131", "title": "Exchanging the voting module does not disturb the proposals", "statement": "When a DAO exchanges its voting module, the proposals it already has keep their terms and ballots; each still counts the voting powers of the module it was made under against that module's total, its status can still be told, it can still be brought to its end, and nothing is executed without the mandate of that electorate.", "quantifier": "every history of a dao-proposal-single module whose DAO exchanges its voting module any number of times, also out of proposals; any voting modules that answer sensibly", "why_tests_cant": "Needs all orders of exchanges, proposals and votes under several voting modules, with arbitrary powers in each.", "anchors": ["contracts/dao-dao-core/src/contract.rs: execute_update_voting_module, reply, query_voting_power_at_height, query_total_power_at_height", "contracts/proposal/dao-proposal-single/src/contract.rs: execute_propose, execute_vote, execute_execute, query_list_proposals", "contracts/proposal/dao-proposal-single/src/proposal.rs: current_status, is_passed, is_rejected", "packages/dao-voting/src/voting.rs: get_voting_power, get_total_power"]}
{"id": "C132", "title": "Exchanging the voting module does not disturb multiple-choice proposals", "statement": "When a DAO exchanges its voting module, the multiple-choice proposals it already has keep their terms and ballots; each still counts the voting powers of the module it was made under against that module's total, its status can still be told, it can still be brought to its end, and only the messages of the option preferred by that electorate, with its quorum, are executed.", "quantifier": "every history of a dao-proposal-multiple module whose DAO exchanges its voting module any number of times, also out of proposals; any voting modules that answer sensibly; any number of options", "why_tests_cant": "Needs all orders of exchanges, proposals and votes under several voting modules, with arbitrary powers in each.", "anchors": ["contracts/dao-dao-core/src/contract.rs: execute_update_voting_module, reply, query_voting_power_at_height, query_total_power_at_height", "contracts/proposal/dao-proposal-multiple/src/contract.rs: execute_propose, execute_vote, execute_execute, query_list_proposals", "contracts/proposal/dao-proposal-multiple/src/proposal.rs: current_status, is_passed, is_rejected, is_choice_unbeatable", "packages/dao-voting/src/voting.rs: get_voting_power, get_total_power"]}
{"id": "C133", "title": "Two DAOs joined by approval stay in step", "statement": "When a DAO's submissions are approved by another DAO through its approver module, every submission is put before the other DAO exactly once, as a proposal without messages; it is approved exactly if that proposal is executed, and then the other DAO's electorate has carried it; it is rejected exactly if that proposal is closed, and then it has not; and every proposal of the first DAO is an approved submission with the submitted messages and proposer.", "quantifier": "every interleaving of calls of the two proposal modules, the approval contract and the approver by anybody, in any blocks, with any sub-messages failing, from any past of the other contracts before the approver takes office", "why_tests_cant": "Four contracts in two DAOs with messages nested across them; needs all orders of submissions, votes, completions and failures.", "anchors": ["contracts/pre-propose/dao-pre-propose-approval-single/src/contract.rs: execute_propose, execute_approve, execute_reject", "contracts/pre-propose/dao-pre-propose-approver/src/contract.rs: execute_propose, execute_proposal_completed, execute_reset_approver", "contracts/proposal/dao-proposal-single/src/contract.rs: execute_propose, execute_execute, execute_close, reply", "packages/dao-hooks/src/proposal.rs: proposal_completed_hooks"]}
{"id": "C134", "title": "Who may do what with a vest", "statement": "A vest is made exactly if its amount and duration are positive, its end lies in the future and within the range of the clock, its schedule rises from zero to the amount, and the amount is sent along (native) or nothing is (cw20). Its recipient, token and start never change, and its schedule only by cancellation. Only the recipient of a funded vest may delegate or redelegate, and only the chain's staking token; anybody may undelegate after cancellation, and only the recipient before; rewards are redirected by the recipient before and the owner after cancellation, never to the contract itself; only the owner cancels, once, and registers slashes; only the token contract funds, once and in full; payments go to the recipient and the current owner; the owner changes only by nomination and acceptance or by renouncing, which is refused while something is left for the owner of a cancelled vest; without an owner and nominee there is never one again.", "quantifier": "every instantiate message, and every history of calls, staking, slashes and transfers after it", "why_tests_cant": "Quantifies over all senders, states and orders of calls.", "anchors": ["contracts/external/cw-vesting/src/contract.rs: instantiate, execute and all its handlers", "contracts/external/cw-vesting/src/vesting.rs: Vest::new, into_curve, cancel, distribute, withdraw_canceled_payment"]}
{"id": "C135", "title": "Streamed rewards reach the stakers", "statement": "When a reward distributor serves a cw20 staking contract, anybody can have what is due distributed as soon as something is due; the distribution moves exactly what is due into the pool of the stakers, changes no stake and no claim, and raises what everybody's stake is worth by their part of it, to within one token; whatever others do, the price of a share rises at least by every distribution divided by the shares of the time, and a staker who leaves is paid accordingly. Rewards go to those who staked while they accrued.", "quantifier": "every interleaving of calls of the distributor and of the staking contract by anybody, from any past of both, with any rates, stakes and amounts", "why_tests_cant": "Quantifies over all amounts, orders of calls and numbers of distributions, with rounding at every step.", "anchors": ["contracts/staking/cw20-stake-reward-distributor/src/contract.rs: get_distribution_msg, execute_distribute, instantiate", "contracts/staking/cw20-stake/src/contract.rs: execute_receive, execute_fund, execute_stake, execute_unstake", "contracts/staking/cw20-stake/src/math.rs"]}
{"id": "C136", "title": "Rewards for weights in a group stay within their funding, and never stand in the way of the group", "statement": "When a distribution of dao-rewards-distributor is about weights in a cw4 group behind dao-voting-cw4, the distributor sees exactly the powers the voting module reports, at every height; everything claimed, withdrawn and claimable stays within what was paid in, however members are added, removed and reweighted, several at a time; whoever is shown rewards can claim them; and the group's admin can always change the members, since the distributor accepts the group's report. This holds however the distributor, the module and the group are connected.", "quantifier": "every history of calls to the group and the distributor, with any number of members changed by one call, any number of distributions, hooks and funding calls", "why_tests_cant": "Every interleaving of updates, reports, funding and claims over any number of blocks, with updates of any size; the tests try a few scripts.", "anchors": ["contracts/distribution/dao-rewards-distributor/src/hooks.rs: execute_membership_changed, get_hook_caller_registered_distribution_ids", "contracts/distribution/dao-rewards-distributor/src/rewards.rs: update_rewards", "contracts/voting/dao-voting-cw4/src/contract.rs: query_voting_power_at_height, query_total_power_at_height"]}
{"id": "C137", "title": "A fund distributor joined to a real voting module pays every member their share, and no more than it holds", "statement": "When cw-fund-distributor asks one of the DAO's voting modules, and that module goes on being used while funds come in and are claimed, then for the height the distribution is made for: no token is paid out beyond what was brought in, nobody gets more than their share of the power at that height, whoever has claimed has all of it but for rounding, once all have claimed less than one unit and a 10^-18th of the pool for each member is left, every claim after the funding period goes through, and the shares are those held at the end of the block before that height, whatever happens afterwards. This holds for any height.", "quantifier": "every history of calls to the distributor and to the module in any interleaving, for each of the six voting modules with any past, any number of members, tokens and funding calls", "why_tests_cant": "The tests let a mock or one staking contract answer for a handful of members; the statement is about all interleavings with staking, unstaking, minting and membership changes, and about all amounts.", "anchors": ["contracts/distribution/cw-fund-distributor/src/contract.rs: instantiate, execute_claim_cw20s, execute_claim_natives, execute_claim_all, get_relative_share", "contracts/voting/*/src/contract.rs: query_voting_power_at_height, query_total_power_at_height"]}
{"id": "C138", "title": "A rewards distributor joined to a staking contract sees every stake, never promises more than it was given, and lets stakes change", "statement": "When dao-rewards-distributor serves members who stake in the token module, in cw20-stake (through its voting module) or in the NFT module, and is told of changes through that contract's hooks: the powers and totals it reckons with are at every height those the staking contract answers; what was claimed, withdrawn, is claimable by anybody and remains of a distribution never exceeds what was paid in; whoever is shown rewards can claim them; and whatever change of a stake the staking contract accepts goes through with all its reports, however many receivers there are. This holds in whatever order distribution and hook are set up.", "quantifier": "every history of calls to both contracts in any interleaving, including calls between a change and its report, for each of the three staking contracts, any number of members, distributions and other receivers", "why_tests_cant": "The tests set up one order of hook and distribution and a handful of members; the statement is about all orders and interleavings.", "anchors": ["contracts/distribution/dao-rewards-distributor/src/hooks.rs: execute_stake_changed, execute_nft_stake_changed", "contracts/distribution/dao-rewards-distributor/src/rewards.rs: update_rewards", "contracts/voting/dao-voting-cw721-staked/src/contract.rs: execute_stake, execute_unstake", "contracts/staking/cw20-stake/src/contract.rs: execute_stake, execute_unstake", "packages/dao-hooks/src/nft_stake.rs, stake.rs"]}
{"id": "C139", "title": "A DAO that exchanges its voting module decides its Condorcet proposals by the electorate they were made for", "statement": "When a DAO with dao-proposal-condorcet exchanges its voting module, proposals keep their terms and the votes stand; every vote counts with the power the voting module in force gave for the proposal's height, and margins, power left and winner are those of these weights; the status can always be told, and after the end of voting no proposal is stuck; its messages are sent at most once, and only those of the choice that beats every other with the quorum met. Moreover the proposals open at the exchange are decided by the powers of the module under which they were made, whoever has power and has not voted can still vote, and a passed proposal can be executed.", "quantifier": "every history of calls by anybody to the proposal module, with exchanges of the voting module at any time, for any voting modules, any number of proposals, choices and voters", "why_tests_cant": "No test exchanges a DAO's voting module while Condorcet proposals are open; the statement is about all histories and all voting modules.", "anchors": ["contracts/proposal/dao-proposal-condorcet/src/contract.rs: execute_propose, execute_vote, execute_execute", "contracts/proposal/dao-proposal-condorcet/src/tally.rs: add_vote, winner", "contracts/dao-dao-core/src/contract.rs: execute_update_voting_module, query_voting_power_at_height"]}
{"id": "C140", "title": "A DAO with modules of all kinds, which its proposals add and disable, acts on the decisions of their electorates only", "statement": "Let a DAO have any number of proposal modules, each of them single-choice, multiple-choice or Condorcet, and let its proposals add and disable modules as they like. Whatever the DAO is made to do is the messages of a proposal of a module enabled at that moment which its electorate has decided as its kind demands, or comes from the admin or an enabled module of another kind; the messages of each proposal of each module are handed to the DAO at most once, never while the DAO is paused, and never after its module has been disabled. Moreover a DAO that is its own admin, and whose proposals nominate no other admin and do not exchange the voting module, does nothing, creates no module and changes nothing in itself or the configurations of its modules, unless this stems from such a proposal, whatever modules it gives itself.", "quantifier": "every history of calls by anybody to the DAO and its modules, in any interleaving also within transactions, for any number of modules of the three kinds created at any time, any proposals, voters and powers", "why_tests_cant": "Tests use DAOs with one proposal module of one kind; the statement is about all histories and all sets of modules that change over time.", "anchors": ["contracts/dao-dao-core/src/contract.rs: execute_proposal_hook, execute_update_proposal_modules, reply", "contracts/proposal/dao-proposal-single/src/contract.rs: execute_execute", "contracts/proposal/dao-proposal-multiple/src/contract.rs: execute_execute", "contracts/proposal/dao-proposal-condorcet/src/contract.rs: execute_execute"]}
{"id": "C141", "title": "The owner of the role tokens can always manage them", "statement": "In every reachable state of a cw721-roles contract its owner can mint a role with an unused id for anybody as long as the total weight fits into 64 bits, can give a role another weight within the same bound, and can burn every role; each call changes the holder's weight and the total by exactly the change of the role's weight and nobody else's weight.", "quantifier": "every history of calls, every role, holder and weight", "why_tests_cant": "A role that can no longer be burned appears only after particular sequences of mints, burns and transfers.", "anchors": ["contracts/external/cw721-roles/src/contract.rs: execute_mint, execute_burn, execute_update_token_weight"]}
{"id": "C142", "title": "A DAO with modules of all kinds can act on every decision of its enabled modules, and changes its modules as decided", "statement": "Let a DAO have any number of modules of the three kinds. In every reachable state in which it is not paused, a passed proposal of any enabled module can be executed by whoever the module lets execute it, is then recorded as executed, and hands the DAO exactly the messages its electorate has decided for. When a message of the DAO adds and disables modules, the modules to be disabled being different, enabled and not all of them unless some are added, it goes through: afterwards exactly those are disabled, the new ones are enabled, and nothing else about modules changes. Between transactions the DAO always has an enabled module.", "quantifier": "every history of calls by anybody, every proposal of every kind of module, every list of modules to add and disable", "why_tests_cant": "Tests have one or two modules; here their number, their kinds and the history are arbitrary.", "anchors": ["contracts/dao-dao-core/src/contract.rs: execute_proposal_hook, execute_update_proposal_modules, reply", "contracts/proposal/dao-proposal-single/src/contract.rs: execute_execute", "contracts/proposal/dao-proposal-multiple/src/contract.rs: execute_execute", "contracts/proposal/dao-proposal-condorcet/src/contract.rs: execute_execute"]}
{"id": "C143", "title": "The queries of a vesting payment tell what it will pay and when", "statement": "In every reachable state of a vest: TotalToVest is the amount it was made for until it is cancelled, and then the amount that had vested when it was cancelled; it is the largest value of Vested, which never decreases with time, is zero at the start of a vest that is not cancelled, and reaches TotalToVest. What Distributable answers for the present or a later time is exactly what can be distributed at that time if nothing happens meanwhile and the contract holds it: every positive request up to it is paid, everything else refused. Distributable answers for every time. VestDuration is nothing exactly if the vest is cancelled, and otherwise the time between its start and the moment at which everything has vested. No vest is complete when it is made.", "quantifier": "every schedule, amount, history of calls, slashes and donations, and every time asked about", "why_tests_cant": "Tests query a few vests at a few times; the claims are about all schedules and all times.", "anchors": ["contracts/external/cw-vesting/src/contract.rs: query, instantiate", "contracts/external/cw-vesting/src/vesting.rs: distributable, vested, total, duration, into_curve", "contracts/external/cw-vesting/src/msg.rs: QueryMsg"]}
{"id": "C144", "title": "A run on a cw20 staking pool costs nobody anything and leaves nothing behind", "statement": "In every reachable state the shares of any stakers (stake times pool divided by total, rounded down) add up to no more than the pool, and those of all of them lack less than one token per staker. A staker whose stake does not change never sees the share fall, whatever others do. All stakers can unstake everything, one after the other in any order, each getting (as a payment or a claim) at least the share before anybody left, and together exactly the pool; afterwards the pool and the total stake are zero.", "quantifier": "every history, any number of stakers, every order of leaving", "why_tests_cant": "Rounding depends on all amounts and on the order; tests try a few of them.", "anchors": ["contracts/staking/cw20-stake/src/contract.rs: execute_unstake, query_staked_value", "contracts/staking/cw20-stake/src/math.rs: amount_to_claim"]}
{"id": "C145", "title": "Splitting stakes over calls or accounts gains nothing in a cw20 pool", "statement": "From every reachable state: stakes taken out in any number of parts, by whatever accounts and at whatever times, take no more out of the pool than the same amount taken out at once, and lack less than one token per part. Tokens staked in any number of parts, for whatever accounts, give no more stake than staked at once, if somebody has a stake before.", "quantifier": "every history, every list of parts", "why_tests_cant": "Whether splitting pays depends on how every amount rounds; tests try few.", "anchors": ["contracts/staking/cw20-stake/src/contract.rs: execute_stake, execute_unstake", "contracts/staking/cw20-stake/src/math.rs: amount_to_stake, amount_to_claim"]}
{"id": "C146", "title": "External rewards give every staker their share of every block", "statement": "At every reachable moment between transactions, as long as at most 10^38 reward tokens were ever brought: what a staker has been paid plus what the contract reports as claimable equals the sum, over the stretches of blocks between calls, of reward rate times blocks within the period times their stake over the total stake (nothing while nobody has a stake), up to two tokens per stretch - whoever claims, stakes, unstakes, donates or funds in between and however often. All who ever have a stake together get all rewards of the blocks in which somebody has one, up to three tokens per staker and stretch.", "quantifier": "every history, every account", "why_tests_cant": "Tests follow a few stakers through a few changes; errors of bookkeeping may need particular orders of calls within and across blocks.", "anchors": ["contracts/staking/cw20-stake-external-rewards/src/contract.rs: update_rewards, get_reward_per_token, get_rewards_earned, execute_claim, execute_stake_changed, query_pending_rewards"]}
{"id": "C147", "title": "All external rewards that are brought reach the stakers or can be taken back", "statement": "Every reward token brought to cw20-stake-external-rewards is, when the period is over, paid to or claimable by stakers (up to rounding), or some call by somebody takes it out of the contract.", "quantifier": "every history of funding, staking and claims, every continuation", "why_tests_cant": "That no sequence of calls ever brings tokens out is a statement about all continuations.", "anchors": ["contracts/staking/cw20-stake-external-rewards/src/contract.rs: execute_fund, get_reward_per_token, update_rewards", "contracts/staking/cw20-stake-external-rewards/src/msg.rs: ExecuteMsg"]}
{"id": "C148", "title": "Every token brought to a distribution is claimed, claimable, withdrawn or still undistributed", "statement": "For every distribution of dao-rewards-distributor: what was claimed and withdrawn, what members can claim and what the contract reports as undistributed together are the amount brought, up to the rounding of shares.", "quantifier": "every history in which changes of power are reported, every distribution", "why_tests_cant": "Tests check balances of members after chosen histories with members present; tokens that drop out of the books are nobody's balance.", "anchors": ["contracts/distribution/dao-rewards-distributor/src/contract.rs: execute_fund_linear, execute_withdraw, query_undistributed_rewards", "contracts/distribution/dao-rewards-distributor/src/rewards.rs: get_active_total_earned_puvp", "contracts/distribution/dao-rewards-distributor/src/state.rs: get_undistributed_rewards"]}
