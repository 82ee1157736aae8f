{
 "claims": [
  {
   "property": "C01",
   "status": "proved",
   "theorems": [
    "C01_tally_is_ballot_sum",
    "C01_ballot_powers"
   ],
   "note": "Tallies: any history of the modelled module, including re-entrancy and reverted calls. Powers/bound: voting module answers are sane (non-negative, sum of distinct addresses <= total < 2^128) and the module stays attached to one DAO (config updates that change the dao address excluded)."
  },
  {
   "property": "C02",
   "status": "proved",
   "theorems": [
    "C02_vote_requires",
    "C02_late_power_irrelevant",
    "C02_ballot_origin"
   ],
   "note": ""
  },
  {
   "property": "C03",
   "status": "proved",
   "theorems": [
    "C03_ballots_immutable",
    "C03_revote_moves_power"
   ],
   "note": "Revote part: DAO address unchanged, sane voting module."
  },
  {
   "property": "C04",
   "status": "partial",
   "theorems": [
    "C04_early_pass_final_partial",
    "C04_continuations_pass_partial",
    "C04_early_pass_final_refuted"
   ],
   "note": "True when the passing percentage is at least one billionth (or Majority / absolute count); false below: C04_early_pass_final_refuted (percentage 10^-18, zero quorum)."
  },
  {
   "property": "C05",
   "status": "proved",
   "theorems": [
    "C05_rejection_final",
    "C05_no_continuation_passes",
    "C05_reject_test",
    "C05_reject_test_sound"
   ],
   "note": "Sane voting module, module attached to one DAO."
  },
  {
   "property": "C06",
   "status": "proved",
   "theorems": [
    "C06_outcome_at_expiry",
    "C06_all_abstain",
    "C06_pass_test",
    "C06_pass_test_complete",
    "C06_pass_test_exact"
   ],
   "note": "Sane voting module, module attached to one DAO. All-abstain: passing percentages below one billionth are excluded when part of the power did not vote at all."
  },
  {
   "property": "C07",
   "status": "partial",
   "theorems": [
    "C07_never_both_partial",
    "C07_never_both_refuted",
    "C07_order_matters_refuted"
   ],
   "note": "Refuted as stated by an 18-digit percentage (test level and as order dependence of the module); proved for percentages with at most nine decimals."
  },
  {
   "property": "C08",
   "status": "proved",
   "theorems": [
    "C08_not_reported_passed_early",
    "C08_not_executed_early"
   ],
   "note": ""
  },
  {
   "property": "C09",
   "status": "proved",
   "theorems": [
    "C09_revoting_stays_open"
   ],
   "note": ""
  },
  {
   "property": "C10",
   "status": "proved",
   "theorems": [
    "C10_dispatched_at_most_once",
    "C10_dispatch_conditions"
   ],
   "note": ""
  },
  {
   "property": "C11",
   "status": "proved",
   "theorems": [
    "C11_terminal_forever"
   ],
   "note": ""
  },
  {
   "property": "C12",
   "status": "proved",
   "theorems": [
    "C12_veto_by_vetoer_in_window",
    "C12_vetoed_never_dispatched"
   ],
   "note": ""
  },
  {
   "property": "C13",
   "status": "proved",
   "theorems": [
    "C13_timelock",
    "C13_timelock_defined"
   ],
   "note": ""
  },
  {
   "property": "C14",
   "status": "proved",
   "theorems": [
    "C14_terms_never_change",
    "C14_ids_consecutive",
    "C14_terms_at_creation"
   ],
   "note": ""
  },
  {
   "property": "C15",
   "status": "proved",
   "theorems": [
    "C15_only_dao_administers",
    "C15_module_chosen_by_dao",
    "C15_proposer_recorded",
    "C15_only_propose_creates"
   ],
   "note": "The policy also changes when the instantiation of a pre-propose module, requested by the DAO, reports its address."
  },
  {
   "property": "C16",
   "status": "proved",
   "theorems": [
    "C16_not_stuck",
    "C16_status_total"
   ],
   "note": "Sub-messages of the execute / close call succeed; sane voting module, one DAO."
  },
  {
   "property": "C17",
   "status": "partial",
   "theorems": [
    "C17_execute_iff_status",
    "C17_close_iff_status",
    "C17_veto_iff_status",
    "C17_time_moves_status_partial",
    "C17_time_moves_status_refuted"
   ],
   "note": "Decisions follow the queried status: proved. Movement of the status with time: proved when the passing percentage is at least one billionth, refuted below."
  },
  {
   "property": "C18",
   "status": "proved",
   "theorems": [
    "C18_failure_contained",
    "C18_failure_does_not_block",
    "C18_failure_reverts"
   ],
   "note": ""
  },
  {
   "property": "C19",
   "status": "partial",
   "theorems": [
    "C19_one_proposal_hook_failure_partial",
    "C19_one_vote_hook_failure_partial",
    "C19_two_failures_refuted",
    "C19_call_fails_refuted"
   ],
   "note": "One failing receiver: proved. Two or more failing receivers in one transaction: refuted (wrong hook removed, or the whole call reverts)."
  },
  {
   "property": "C20",
   "status": "proved",
   "theorems": [
    "C20_reply_id_roundtrip",
    "C20_reply_ids_distinct",
    "C20_reply_id_range"
   ],
   "note": ""
  },
  {
   "property": "C21",
   "status": "proved",
   "theorems": [
    "C21_vote_refused_only_if",
    "C21_propose_accepted"
   ],
   "note": "Sane voting module, one DAO."
  },
  {
   "property": "C22",
   "status": "partial",
   "theorems": [
    "C22_weights_are_ballot_sums",
    "C22_weights_within_total_partial",
    "C22_weights_within_total_refuted",
    "C22_status_aborts_refuted",
    "C22_vote_aborts_refuted"
   ],
   "note": "Tallies equal ballots: proved for any history. \"Within the total power\" needs the total reported during proposal creation to cover the powers at the start of that block; the total is asked without a height, and without that condition the claim is refuted (C22_*_refuted; cw721-roles answers that way)."
  },
  {
   "property": "C23",
   "status": "proved",
   "theorems": [
    "C23_early_pass_final",
    "C23_continuations_pass"
   ],
   "note": "Sane voting module (powers non-negative, sum of distinct addresses <= total reported at creation < 2^128), module attached to one DAO."
  },
  {
   "property": "C24",
   "status": "proved",
   "theorems": [
    "C24_rejection_final",
    "C24_no_continuation_passes"
   ],
   "note": "Sane voting module (powers non-negative, sum of distinct addresses <= total reported at creation < 2^128), module attached to one DAO."
  },
  {
   "property": "C25",
   "status": "proved",
   "theorems": [
    "C25_dispatched_at_most_once",
    "C25_dispatch_is_winner",
    "C25_execution_has_winner"
   ],
   "note": "C25_execution_has_winner: Sane voting module (powers non-negative, sum of distinct addresses <= total reported at creation < 2^128), module attached to one DAO."
  },
  {
   "property": "C26",
   "status": "proved",
   "theorems": [
    "C26_terms_never_change",
    "C26_ids_consecutive",
    "C26_terms_at_creation",
    "C26_choices",
    "C26_terminal_forever",
    "C26_veto_by_vetoer_in_window",
    "C26_vetoed_never_dispatched",
    "C26_timelock",
    "C26_timelock_defined",
    "C26_only_dao_administers",
    "C26_module_chosen_by_dao",
    "C26_proposer_recorded",
    "C26_only_propose_creates"
   ],
   "note": ""
  },
  {
   "property": "C27",
   "status": "proved",
   "theorems": [
    "C27_margins",
    "C27_votes_are_rankings",
    "C27_packing",
    "C27_vote_effect"
   ],
   "note": "Voting module answers are unsigned 128-bit numbers (typed)."
  },
  {
   "property": "C28",
   "status": "proved",
   "theorems": [
    "C28_reported_winner",
    "C28_winner_unique"
   ],
   "note": "Voting module answers are unsigned 128-bit numbers (typed)."
  },
  {
   "property": "C29",
   "status": "proved",
   "theorems": [
    "C29_verdicts_final",
    "C29_undisputed_continuations",
    "C29_never_continuations",
    "C29_no_winner_yet_is_open",
    "C29_disputed_winner_is_open"
   ],
   "note": "Voting module answers are unsigned 128-bit numbers (typed). Both as a fact about later contract states and about every set of ballots within the outstanding power; the verdicts are also shown to be as early as possible."
  },
  {
   "property": "C30",
   "status": "proved",
   "theorems": [
    "C30_dispatched_at_most_once",
    "C30_dispatch_is_winner",
    "C30_vote_requirements",
    "C30_vote_origin",
    "C30_votes_immutable",
    "C30_terminal_forever",
    "C30_failure_contained",
    "C30_terms_never_change",
    "C30_ids_consecutive",
    "C30_only_dao_configures"
   ],
   "note": "Voting module answers are unsigned 128-bit numbers (typed)."
  },
  {
   "property": "C31",
   "status": "proved",
   "theorems": [
    "C31_returned_at_most_once",
    "C31_right_party",
    "C31_paid_on_completion",
    "C31_withdrawals_to_dao"
   ],
   "note": "Pre-propose module joined to a dao-proposal-single module with any past; joint history with re-entrancy and arbitrary outcomes of token transfers and hooks. The DAO may also withdraw the module's balances; such withdrawals are shown to go to the DAO."
  },
  {
   "property": "C32",
   "status": "proved",
   "theorems": [
    "C32_deposit_taken",
    "C32_deposit_recorded",
    "C32_wrong_coins_refused",
    "C32_no_failed_transfer",
    "C32_records_kept"
   ],
   "note": "Pre-propose module joined to a dao-proposal-single module with any past; joint history with re-entrancy and arbitrary outcomes of token transfers and hooks."
  },
  {
   "property": "C33",
   "status": "proved",
   "theorems": [
    "C33_accepts_iff",
    "C33_policy_decides",
    "C33_every_submission",
    "C33_update_effect",
    "C33_lists_disjoint_and_open",
    "C33_only_dao_updates"
   ],
   "note": "Pre-propose module joined to a dao-proposal-single module with any past; joint history with re-entrancy and arbitrary outcomes of token transfers and hooks."
  },
  {
   "property": "C34",
   "status": "proved",
   "theorems": [
    "C34_one_state",
    "C34_submission_stored",
    "C34_only_approver",
    "C34_subs_leave_submissions",
    "C34_resolved_once",
    "C34_approval_creates",
    "C34_rejection_pays"
   ],
   "note": "Pre-propose module joined to a dao-proposal-single module with any past; joint history with re-entrancy and arbitrary outcomes of token transfers and hooks."
  },
  {
   "property": "C35",
   "status": "partial",
   "theorems": [
    "C35_refuted",
    "C35_veto_always_refused",
    "C35_executed_closed_partial"
   ],
   "note": "Executed and closed proposals created by the approver module: proved. Refuted for vetoed ones: the completion hook of the approver module rejects the status Vetoed, so the proposal module removes it and lets anyone propose."
  },
  {
   "property": "C36",
   "status": "proved",
   "theorems": [
    "C36_solvent",
    "C36_exact_accounting",
    "C36_no_conversion_panic",
    "C36_stake_accepted"
   ],
   "note": "The staked token is a correct cw20: holdings change only by transfers, total supply below 2^128, no callbacks from transfers."
  },
  {
   "property": "C37",
   "status": "partial",
   "theorems": [
    "C37_round_trip_refuted",
    "C37_round_trip_partial",
    "C37_share_value_never_falls",
    "C37_share_value_call",
    "C37_unstake_pays_share"
   ],
   "note": "The staked token is a correct cw20: holdings change only by transfers, total supply below 2^128, no callbacks from transfers. Share value never falls and unstaking pays the share rounded down: proved. Round trip: proved while somebody has a stake; refuted for an empty pool holding rewards (they go to the next staker)."
  },
  {
   "property": "C38",
   "status": "proved",
   "theorems": [
    "C38_created_released_or_open",
    "C38_paid_what_was_released",
    "C38_collection",
    "C38_nobody_else",
    "C38_due_can_be_collected"
   ],
   "note": "The staked token is a correct cw20: holdings change only by transfers, total supply below 2^128, no callbacks from transfers."
  },
  {
   "property": "C39",
   "status": "proved",
   "theorems": [
    "C39_reports_start_of_block",
    "C39_immutable",
    "C39_adds_up",
    "C39_any_voters_within_total"
   ],
   "note": ""
  },
  {
   "property": "C40",
   "status": "partial",
   "theorems": [
    "C40_refuted",
    "C40_positive_iff_partial"
   ],
   "note": "Refuted: a deposit worth less than one share is kept and gives no stake. Proved: the exact condition under which the stake grows."
  },
  {
   "property": "C41",
   "status": "proved",
   "theorems": [
    "C41_powers_sum_to_total",
    "C41_any_voters_within_total",
    "C41_holdings",
    "C41_start_of_block",
    "C41_past_never_changes"
   ],
   "note": "Holdings equal stake plus open claims plus coins sent to the module without a call."
  },
  {
   "property": "C42",
   "status": "proved",
   "theorems": [
    "C42_tok_single_tally",
    "C42_tok_single_electorate",
    "C42_tok_single_same",
    "C42_tok_single_rejected",
    "C42_tok_mult_tally",
    "C42_tok_mult_electorate",
    "C42_tok_mult_same",
    "C42_tok_mult_final",
    "C42_tok_cond_tally",
    "C42_tok_cond_electorate",
    "C42_tok_cond_same",
    "C42_cw20_single_tally",
    "C42_cw20_single_electorate",
    "C42_cw20_single_same",
    "C42_cw20_single_rejected",
    "C42_cw20_mult_tally",
    "C42_cw20_mult_electorate",
    "C42_cw20_mult_same",
    "C42_cw20_mult_final",
    "C42_cw20_cond_tally",
    "C42_cw20_cond_electorate",
    "C42_cw20_cond_same",
    "C42_nft_single_tally",
    "C42_nft_single_electorate",
    "C42_nft_single_same",
    "C42_nft_single_rejected",
    "C42_nft_mult_tally",
    "C42_nft_mult_electorate",
    "C42_nft_mult_same",
    "C42_nft_mult_final",
    "C42_nft_cond_tally",
    "C42_nft_cond_electorate",
    "C42_nft_cond_same"
   ],
   "note": "For all three proposal modules, on the token-staked, the cw20-staked (cw20-stake) and the NFT-staked voting module. The activity answer of the cw20 module is arbitrary. The DAO keeps its voting module."
  },
  {
   "property": "C43",
   "status": "proved",
   "theorems": [
    "C43_held_exactly_once",
    "C43_one_staker",
    "C43_power_is_count",
    "C43_powers_sum_to_total",
    "C43_any_voters_within_total",
    "C43_start_of_block",
    "C43_past_never_changes",
    "C43_returned_as_often_as_staked",
    "C43_created_released_or_open",
    "C43_released_to_staker_when_due",
    "C43_leaves_only_by_release",
    "C43_nobody_else",
    "C43_can_unstake",
    "C43_due_can_be_collected",
    "C43_can_stake",
    "C43_only_the_collection_stakes",
    "C43_instantiate",
    "C43_duration"
   ],
   "note": "The collection is a correct cw721. Tokens transferred to the module without a call are counted separately: they are neither staked nor claimable."
  },
  {
   "property": "C44",
   "status": "partial",
   "theorems": [
    "C44_nft_module",
    "C44_nft_factory_refuted",
    "C44_percent_refuted",
    "C44_percent_exact_partial",
    "C44_percent_close",
    "C44_module",
    "C44_configured",
    "C44_instantiated"
   ],
   "note": "Refuted as stated for percentages with more than nine decimals (product truncated at nine decimals before rounding up): active with zero stake. Refuted for NFT collections made by a factory: the count is not checked. Proved exact for at most nine decimals and within a billionth of a token otherwise; acceptance of thresholds characterised exactly."
  },
  {
   "property": "C45",
   "status": "partial",
   "theorems": [
    "C45_paid_at_most_vested",
    "C45_each_payment",
    "C45_everything_in_the_end",
    "C45_schedule_grows",
    "C45_schedule_linear",
    "C45_schedule_piecewise",
    "C45_later_slash_refuted"
   ],
   "note": "Joined to a model of bank balance, delegations and unbonding entries of the contract; slashes may be registered or not. Proved at every payment (paid + slashed <= vested), and paid <= vested at every time. The literal \"less slashing at every time\" is refuted: a slash registered after a payment is not taken back. Full payment at the end, monotonicity and the shape of the schedules are proved."
  },
  {
   "property": "C46",
   "status": "partial",
   "theorems": [
    "C46_tokens_add_up",
    "C46_books_match_balance",
    "C46_covered_before_cancellation_partial",
    "C46_unreported_slash_refuted"
   ],
   "note": "Joined to a model of bank balance, delegations and unbonding entries of the contract; slashes may be registered or not. The sum and the match between books and balance are proved. \"No payout exceeds what is held\" is proved up to the tokens slashed while unbonding, and refuted when such a slash is not registered."
  },
  {
   "property": "C47",
   "status": "proved",
   "theorems": [
    "C47_each_side_bounded",
    "C47_recipient_gets_vested",
    "C47_only_unbonding_matters"
   ],
   "note": "Joined to a model of bank balance, delegations and unbonding entries of the contract; slashes may be registered or not."
  },
  {
   "property": "C48",
   "status": "partial",
   "theorems": [
    "C48_covered_partial",
    "C48_covered_refuted"
   ],
   "note": "Joined to a model of bank balance, delegations and unbonding entries of the contract; slashes may be registered or not. Refuted: slash, cancel, partial undelegation. Proved when nothing was slashed or what is still staked all belongs to the owner."
  },
  {
   "property": "C49",
   "status": "proved",
   "theorems": [
    "C49_load_is_sum_of_updates",
    "C49_known_from_first_update",
    "C49_order_is_irrelevant",
    "C49_updates_succeed_in_range"
   ],
   "note": ""
  },
  {
   "property": "C50",
   "status": "partial",
   "theorems": [
    "C50_total_partial",
    "C50_validator_partial",
    "C50_validators_sum_to_total_partial",
    "C50_unbonding_slash_until_next_change",
    "C50_unbonding_slash_refuted"
   ],
   "note": "proved for histories without slashes of unbonding tokens; with them the statement is false (C50_unbonding_slash_refuted): the registered slash is forgotten at the next tracked change"
  },
  {
   "property": "C51",
   "status": "proved",
   "theorems": [
    "C51_promises_within_funding",
    "C51_balance",
    "C51_claim_pays",
    "C51_others_untouched",
    "C51_accrual"
   ],
   "note": "Joined to cw20-stake, whose hooks are delivered in the same block in any order; the hook is installed whenever stakes change after the first funding. Growth between two blocks is within two tokens of the exact share."
  },
  {
   "property": "C52",
   "status": "partial",
   "theorems": [
    "C52_at_most_the_rate",
    "C52_rate_when_enough",
    "C52_schedule_irrelevant",
    "C52_distribute",
    "C52_balance",
    "C52_owner",
    "C52_config_change_refuted"
   ],
   "note": "Proved: at most the rate, exactly the rate when the balance suffices, total independent of the schedule of calls, what each call pays. The last sentence is refuted: update_config moves the last payment block first, so it never pays and what was due is lost. Whether validation queries succeed is part of the message."
  },
  {
   "property": "C53",
   "status": "partial",
   "theorems": [
    "C53_at_most_the_share",
    "C53_after_a_claim_partial",
    "C53_total_within_funding_partial",
    "C53_claims_accepted",
    "C53_periods",
    "C53_made",
    "C53_redistributes_partial",
    "C53_floor_refuted",
    "C53_other_height_refuted",
    "C53_redistribution_refuted",
    "C53_future_height_refuted"
   ],
   "note": "Proved: never more than the share; what a claim brings a member to (share rounded to 18 decimals, then down); payments independent of order and repetition. Refuted: the exact floor (one third of three tokens pays nothing); the total when the power at the distribution height differs from the one recorded at instantiation, after a redistribution (the total is not updated), or when the distribution height lies ahead. Proved within the funding when the total at the height is at most the recorded one. The voting contract is an oracle whose past answers are fixed and add up."
  },
  {
   "property": "C54",
   "status": "partial",
   "theorems": [
    "C54_promises_within_funding_partial",
    "C54_claim_pays_what_was_reported",
    "C54_claim_succeeds_partial",
    "C54_same_block_refuted",
    "C54_funding_the_past_refuted",
    "C54_other_voting_contract_refuted"
   ],
   "note": "Voting-power contracts answer for the start of the block; every change is reported by the hook caller in the same block, in any order with other calls. Proved when the distribution keeps its voting-power contract and hook caller, and nothing is handed out at once (immediate emission, continuous funding of the past) in a block in which powers changed before; then claims also succeed. Refuted in each of these cases."
  },
  {
   "property": "C55",
   "status": "partial",
   "theorems": [
    "C55_updates_cost_partial",
    "C55_updates_between_periods_refuted"
   ],
   "note": "Proved: n updates cost at most two tokens each, plus one share of a period for each update in the middle of a period; powers constant. Refuted: updates every nine blocks with a period of ten lose everything."
  },
  {
   "property": "C56",
   "status": "partial",
   "theorems": [
    "C56_dispatch_partial",
    "C56_callbacks_refuted",
    "C56_paused_only_admin",
    "C56_who_pauses",
    "C56_pause_range",
    "C56_pause_made",
    "C56_own_calls_partial",
    "C56_lists_refuted",
    "C56_modules_act",
    "C56_admin_acts"
   ],
   "note": "Steps of the DAO interleave with re-entrant calls; nothing is dispatched except by an enabled module, the admin, the DAO itself carrying out a message, or a new module in the data of its creation; the last is refuted as not stated. Lists of tokens also change by anybody when automatic adding is on (refuted)."
  },
  {
   "property": "C57",
   "status": "proved",
   "theorems": [
    "C57_some_module",
    "C57_counts",
    "C57_modules_stay"
   ],
   "note": "Counts also hold in the middle of transactions. New contracts have new addresses."
  },
  {
   "property": "C58",
   "status": "proved",
   "theorems": [
    "C58_two_step",
    "C58_withdraws",
    "C58_first_admin",
    "C58_nominee_accepts"
   ],
   "note": ""
  },
  {
   "property": "C59",
   "status": "proved",
   "theorems": [
    "C59_prefix_unique",
    "C59_prefix_letters",
    "C59_prefix_defined",
    "C59_module_prefixes"
   ],
   "note": "Indices below 2^32 - 1; the function panics beyond."
  },
  {
   "property": "C60",
   "status": "proved",
   "theorems": [
    "C60_outcome",
    "C60_takes_back",
    "C60_completes",
    "C60_completes_first",
    "C60_complete_is_final",
    "C60_nobody_else",
    "C60_balance"
   ],
   "note": "The two counterparties are accounts other than the swap contract, and the cw20 tokens used move exactly what a transfer says. A history may include donations to the contract, failed calls and a withdrawal before completion."
  },
  {
   "property": "C61",
   "status": "proved",
   "theorems": [
    "C61_within_grants",
    "C61_minted_since_grant",
    "C61_burned_since_grant",
    "C61_who_changes",
    "C61_owner_only",
    "C61_mint_exact",
    "C61_mint_possible",
    "C61_burn_exact",
    "C61_force_exact",
    "C61_takes_admin",
    "C61_supply"
   ],
   "note": "Minted and burned amounts are those of the messages emitted; granted amounts those of the owner's calls. Besides the bound over the whole history: since the last grant exactly what was granted less what was used is left, who changes an allowance, and for a token created by the contract and never handed over the whole supply was minted on allowances."
  },
  {
   "property": "C62",
   "status": "partial",
   "theorems": [
    "C62_hook_partial",
    "C62_transfer_partial",
    "C62_frozen_mint",
    "C62_unhooked_refuted",
    "C62_issuer_never_denied",
    "C62_lists_owner",
    "C62_hook_in_place"
   ],
   "note": "The hook's verdict is characterised from the history for every pair of accounts, and every transfer the bank makes while it asks this contract obeys it (mints too, and a mint while frozen obeys the list even when the bank does not ask). Refuted without that condition: SetBeforeSendHook may take the hook away while the token is frozen and accounts are denied; both flags stay but transfers pass. C62_hook_in_place: for a token the contract created and never handed over, the hook is in place exactly while the lists can be edited."
  },
  {
   "property": "C63",
   "status": "partial",
   "theorems": [
    "C63_weights_partial",
    "C63_total_of_tokens",
    "C63_transfer_refuted"
   ],
   "note": "Proved: the total is the weight of all tokens in every history, and an account to or from which no token was transferred has the weight of its tokens. Refuted: a transfer or send leaves both weights where they were; the token may then be impossible to burn. cw721-base is modelled from its documentation."
  },
  {
   "property": "C64",
   "status": "proved",
   "theorems": [
    "C64_one_listing",
    "C64_one_page",
    "C64_all_pages",
    "C64_changing",
    "C64_active_pages",
    "C64_active_one"
   ],
   "note": "Also when the map changes between pages: no key twice, in order, and every key present throughout is listed once a page is short. The listing of enabled proposal modules is covered too (without a limit for fewer than 2^32 modules). Keys are byte strings read in byte order."
  },
  {
   "property": "C65",
   "status": "proved",
   "theorems": [
    "C65_vote_requires",
    "C65_late_power_irrelevant",
    "C65_ballot_origin",
    "C65_ballots_immutable",
    "C65_revote_moves_power"
   ],
   "note": "Re-vote part: Sane voting module (powers non-negative, sum of distinct addresses <= total reported at creation < 2^128), module attached to one DAO."
  },
  {
   "property": "C66",
   "status": "proved",
   "theorems": [
    "C66_outcome_at_expiry",
    "C66_not_reported_passed_early",
    "C66_not_executed_early",
    "C66_revoting_stays_open"
   ],
   "note": "Sane voting module (powers non-negative, sum of distinct addresses <= total reported at creation < 2^128), module attached to one DAO."
  },
  {
   "property": "C67",
   "status": "proved",
   "theorems": [
    "C67_not_stuck",
    "C67_status_total",
    "C67_execute_iff_status",
    "C67_close_iff_status",
    "C67_veto_iff_status",
    "C67_time_moves_status",
    "C67_vote_refused_only_if",
    "C67_propose_accepted"
   ],
   "note": "Sane voting module (powers non-negative, sum of distinct addresses <= total reported at creation < 2^128), module attached to one DAO."
  },
  {
   "property": "C68",
   "status": "partial",
   "theorems": [
    "C68_failure_contained",
    "C68_failure_does_not_block",
    "C68_failure_reverts",
    "C68_one_proposal_hook_failure_partial",
    "C68_one_vote_hook_failure_partial",
    "C68_two_failures_refuted",
    "C68_call_fails_refuted"
   ],
   "note": "Failure containment and one failing receiver: proved. Two or more failing receivers in one transaction: refuted."
  },
  {
   "property": "C69",
   "status": "partial",
   "theorems": [
    "C69_status_always_defined",
    "C69_at_expiration",
    "C69_before_expiration",
    "C69_minimum_period",
    "C69_passed_final",
    "C69_rejected_final",
    "C69_execute_accepted_iff",
    "C69_close_accepted_iff",
    "C69_vote_accepted_iff_partial",
    "C69_vote_accepted_iff_refuted"
   ],
   "note": "Voting module answers are unsigned 128-bit numbers (typed). Everything but the acceptance of votes is proved; \"a complete ranking cast in time is accepted\" needs the total reported at creation to cover the powers at the start of that block and is refuted without that."
  },
  {
   "property": "C70",
   "status": "partial",
   "theorems": [
    "C70_refuted",
    "C70_unstake_accepted_partial"
   ],
   "note": "The staked token is a correct cw20: holdings change only by transfers, total supply below 2^128, no callbacks from transfers. Proved while amount plus pool stays below 2^128-1; refuted above (the sanity check of execute_unstake refuses an honest unstake)."
  },
  {
   "property": "C71",
   "status": "partial",
   "theorems": [
    "C71_refuted",
    "C71_value_is_payout",
    "C71_available_partial"
   ],
   "note": "The staked token is a correct cw20: holdings change only by transfers, total supply below 2^128, no callbacks from transfers. Reported value equals the payout: proved whenever the query answers. Refuted: the query overflows once stake times pool exceeds 128 bits (2^64 each)."
  },
  {
   "property": "C72",
   "status": "proved",
   "theorems": [
    "C72_conservation",
    "C72_created_released_or_open",
    "C72_payments",
    "C72_nobody_else",
    "C72_can_unstake",
    "C72_due_can_be_collected"
   ],
   "note": ""
  },
  {
   "property": "C73",
   "status": "proved",
   "theorems": [
    "C73_nft_module",
    "C73_token_module"
   ],
   "note": ""
  },
  {
   "property": "C74",
   "status": "partial",
   "theorems": [
    "C74_cardinality_partial",
    "C74_delegating_again_refuted",
    "C74_redelegating_refuted"
   ],
   "note": "false in general: delegating again while everything is unbonding, or redelegating the bonded part, leaves a wrong count (refuted theorems); proved for delegations and undelegations without the first case"
  },
  {
   "property": "C75",
   "status": "partial",
   "theorems": [
    "C75_undelegate_partial",
    "C75_undelegate_refuted"
   ],
   "note": "false: after delegating again to a validator whose stake is all unbonding, the tracker panics when that stake is undelegated (refuted theorem); proved when the tracked cardinality is at least one"
  },
  {
   "property": "C76",
   "status": "partial",
   "theorems": [
    "C76_can_cancel_partial",
    "C76_recipient_blocks_refuted",
    "C76_unfunded_refuted"
   ],
   "note": "Joined to a model of bank balance, delegations and unbonding entries of the contract; slashes may be registered or not. Refuted: the recipient donates one token and delegates everything, after which liquid() underflows; also an unfunded vest cannot be cancelled once vesting has begun. Proved for funded vests without donations and unregistered losses."
  },
  {
   "property": "C77",
   "status": "partial",
   "theorems": [
    "C77_query_answers_partial",
    "C77_hook_accepted_partial",
    "C77_overflow_refuted"
   ],
   "note": "Proved for at most 10^38 tokens funded in total. Refuted above: funding 2^128-1 tokens over one block to a stake of one overflows 256 bits, and every later stake and unstake is refused."
  },
  {
   "property": "C78",
   "status": "proved",
   "theorems": [
    "C78_terms_by_owner_between_periods",
    "C78_funding"
   ],
   "note": ""
  },
  {
   "property": "C79",
   "status": "partial",
   "theorems": [
    "C79_claims_accepted_partial",
    "C79_claim_all_refuted"
   ],
   "note": "Refuted for claim-all: anybody can add a cw20 that refuses transfers. Proved when no token in the pool refuses and the recorded total is not below the total at the distribution height."
  },
  {
   "property": "C80",
   "status": "proved",
   "theorems": [
    "C80_balance"
   ],
   "note": ""
  },
  {
   "property": "C81",
   "status": "proved",
   "theorems": [
    "C81_owner_sets_terms",
    "C81_withdraw_returns_the_rest",
    "C81_payees"
   ],
   "note": "The exact withdrawal amount is proved for the histories of C54."
  },
  {
   "property": "C82",
   "status": "partial",
   "theorems": [
    "C82_owner_partial",
    "C82_owner_stays",
    "C82_stuck",
    "C82_handover_refuted"
   ],
   "note": "Proved: only the owner does anything. Refuted: execute asserts the current owner before everything, including acceptance by the pending owner, so the DAO can never accept; C82_stuck: nothing ever changes after the set-up, since the voting contract makes no further calls."
  },
  {
   "property": "C83",
   "status": "partial",
   "theorems": [
    "C83_told_partial",
    "C83_every_hook",
    "C83_registered",
    "C83_lowered_refuted"
   ],
   "note": "Proved: every hook is told once about every changed member, truly unless the call lowers a weight. Refuted when it does: both weights are told as none."
  },
  {
   "property": "C84",
   "status": "proved",
   "theorems": [
    "C84_sum",
    "C84_past"
   ],
   "note": ""
  },
  {
   "property": "C85",
   "status": "partial",
   "theorems": [
    "C85_powers_add_up",
    "C85_any_voters",
    "C85_past_fixed",
    "C85_power_is_count_partial",
    "C85_count_refuted"
   ],
   "note": "Sums and the past hold in every history. That power is the number of tokens staked holds as long as the DAO cancels the stake of no token that is staked or waiting to be claimed; refuted otherwise: the cancellation leaves the stake counted, and staking the token again counts it twice."
  },
  {
   "property": "C86",
   "status": "partial",
   "theorems": [
    "C86_held_once_partial",
    "C86_one_staker_partial",
    "C86_conservation_partial",
    "C86_can_unstake_partial",
    "C86_can_collect_partial",
    "C86_others",
    "C86_cancelled_refuted",
    "C86_shared_refuted"
   ],
   "note": "Under the same condition. Refuted otherwise: the token is gone, its staker keeps the power and cannot unstake; the recipient may stake it, so two members have one token. The module is not a sender itself, and a claim list holds at most 70 entries."
  },
  {
   "property": "C87",
   "status": "partial",
   "theorems": [
    "C87_payments",
    "C87_leaves",
    "C87_prepared_by",
    "C87_prepares",
    "C87_confirms",
    "C87_staked_by",
    "C87_safe_partial",
    "C87_can_stake_partial",
    "C87_can_cancel",
    "C87_stale_refuted"
   ],
   "note": "Proved in every history: who is recorded as preparer, that they owned the token then, that only they confirm, and every way a token leaves. A token moved in by the account that prepared it last is safe. Refuted when another account moves it in: a preparation outlives the ownership, so a former owner can stake and take a token that its present owner sent without preparing it again."
  },
  {
   "property": "C88",
   "status": "proved",
   "theorems": [
    "C88_items",
    "C88_cw20s",
    "C88_cw721s",
    "C88_subdaos",
    "C88_config",
    "C88_voting",
    "C88_own_calls_work"
   ],
   "note": "Queries by page over these records are in C64."
  },
  {
   "property": "C89",
   "status": "proved",
   "theorems": [
    "C89_recorded",
    "C89_once",
    "C89_listed",
    "C89_terms",
    "C89_serves"
   ],
   "note": "The new contract is a state reached in the model of cw-vesting (C45-C48, C76, C77 apply to it). A token outside the set of honest ones may fail, lie or not call back."
  },
  {
   "property": "C90",
   "status": "partial",
   "theorems": [
    "C90_settings",
    "C90_owner_asks_partial",
    "C90_exact_partial",
    "C90_empty_partial",
    "C90_bypass_refuted",
    "C90_stuck_refuted",
    "C90_spends_refuted"
   ],
   "note": "Proved: the orderer recorded is the owner, and the sender too unless the call poses as a cw20 receipt; an order in the token sent moves exactly the tokens sent; while all orders are so, the factory holds nothing; settings. Refuted: any account can call Receive in the name of the owner (with itself as the token); the token sent is not compared with the token to be vested, so the tokens sent may stay behind, and the native path pays a cw20 order from whatever the factory holds."
  },
  {
   "property": "C91",
   "status": "partial",
   "theorems": [
    "C91_own_admin",
    "C91_made",
    "C91_only_admin",
    "C91_clean",
    "C91_works",
    "C91_expected_partial",
    "C91_expected_refuted",
    "C91_confused_refuted"
   ],
   "note": "Proved in every history: admin, own admin, nothing is left over for later calls, and calls from outside work. That expectations are met is proved when no contract uses the second message while it is being made. Refuted otherwise: the slot for the expected address is shared, so a nested call replaces and clears the expectation of the outer one, and a nested call without expectation is held against that of the outer one."
  },
  {
   "property": "C92",
   "status": "proved",
   "theorems": [
    "C92_powers_add_up",
    "C92_past_fixed",
    "C92_start_of_block",
    "C92_backed",
    "C92_own_stake_only",
    "C92_threshold_by_dao",
    "C92_threshold_last",
    "C92_setup_new",
    "C92_setup_old"
   ],
   "note": "Set-ups with existing contracts ask that these are what they say (csound): a standard cw20 token and a cw20-stake contract with a history of its own."
  },
  {
   "property": "C93",
   "status": "partial",
   "theorems": [
    "C93_active_means",
    "C93_met_by_tokens_partial",
    "C93_inflated_refuted",
    "C93_burnt_refuted",
    "C93_locked_refuted",
    "C93_idle_bound"
   ],
   "note": "Proved: the answer is that of the amount staked against the supply; with a staking contract of the module that nobody funds, stakes are tokens one to one, and all tokens meet a threshold that is sensible for the present supply. Refuted: funding makes stakes worth several tokens, so all tokens may be staked below the threshold; burning leaves less than the count accepted; tokens given to the DAO count in the supply although the DAO cannot act while inactive, so a set-up can be inactive for ever."
  },
  {
   "property": "C94",
   "status": "proved",
   "theorems": [
    "C94_powers_add_up",
    "C94_past_fixed",
    "C94_as_last_set",
    "C94_by_admin",
    "C94_frozen",
    "C94_dao_only",
    "C94_setup_new",
    "C94_refused"
   ],
   "note": "Groups are cw4-group contracts, modelled from their documentation."
  },
  {
   "property": "C95",
   "status": "partial",
   "theorems": [
    "C95_new_has_power",
    "C95_old_has_power_partial",
    "C95_old_zero_refuted",
    "C95_first_block_refuted",
    "C95_foreign_refuted"
   ],
   "note": "Proved for new groups from the next block on, and for existing groups whose members all have weight. Refuted: an existing group of members with weight 0 is accepted; in the block of the set-up the total is 0; the admin of an existing group need not be the DAO."
  },
  {
   "property": "C96",
   "status": "proved",
   "theorems": [
    "C96_grp_single_tally",
    "C96_grp_single_electorate",
    "C96_grp_single_same",
    "C96_grp_single_rejected",
    "C96_grp_mult_tally",
    "C96_grp_mult_electorate",
    "C96_grp_mult_same",
    "C96_grp_mult_final",
    "C96_grp_cond_tally",
    "C96_grp_cond_electorate",
    "C96_grp_cond_same",
    "C96_role_single_tally",
    "C96_role_single_electorate",
    "C96_role_single_same",
    "C96_role_single_rejected",
    "C96_role_mult_tally",
    "C96_role_mult_electorate",
    "C96_role_mult_same",
    "C96_role_mult_final",
    "C96_role_cond_tally",
    "C96_role_cond_electorate",
    "C96_role_cond_same",
    "C96_onft_single_tally",
    "C96_onft_single_electorate",
    "C96_onft_single_same",
    "C96_onft_single_rejected",
    "C96_onft_mult_tally",
    "C96_onft_mult_electorate",
    "C96_onft_mult_same",
    "C96_onft_mult_final",
    "C96_onft_cond_tally",
    "C96_onft_cond_electorate",
    "C96_onft_cond_same"
   ],
   "note": "Power held at the start of a block is that recorded by the voting module then."
  },
  {
   "property": "C97",
   "status": "proved",
   "theorems": [
    "C97_accepted",
    "C97_kept",
    "C97_compatible",
    "C97_old_final",
    "C97_old_no_veto"
   ],
   "note": "What version one leaves is described by v1_left and z_left as far as needed: its code is not part of the repository. The theorem about acceptance and what is carried over holds of every store."
  },
  {
   "property": "C98",
   "status": "partial",
   "theorems": [
    "C98_final_partial",
    "C98_once_partial",
    "C98_twice_refuted",
    "C98_undone_refuted"
   ],
   "note": "Proved as long as FromV1 is not sent again. Refuted otherwise: version one's data are never removed, and FromV1 at a later upgrade reads them again, so proposals executed since are reopened and executed twice, and the configuration is reset."
  },
  {
   "property": "C99",
   "status": "proved",
   "theorems": [
    "C99_accepted",
    "C99_taken_over"
   ],
   "note": "Name, description and image are one number in the model: that they are copied is not claimed."
  },
  {
   "property": "C100",
   "status": "partial",
   "theorems": [
    "C100_counts_partial",
    "C100_prefixes_partial",
    "C100_some_module_partial",
    "C100_disabled_partial",
    "C100_disabled_refuted",
    "C100_counts_refuted",
    "C100_prefixes_refuted",
    "C100_stuck_refuted"
   ],
   "note": "Proved as long as FromV1 is not sent again. Refuted otherwise: modules disabled since are enabled again, counts no longer match, the next module shares a prefix, and modules that might be disabled cannot be."
  },
  {
   "property": "C101",
   "status": "proved",
   "theorems": [
    "C101_accepted",
    "C101_new_never",
    "C101_stake_kept",
    "C101_rewards_kept",
    "C101_distributor_kept",
    "C101_solvent",
    "C101_token",
    "C101_past_fixed"
   ],
   "note": "Stakes left by version one are taken to be those of some history of the model."
  },
  {
   "property": "C102",
   "status": "partial",
   "theorems": [
    "C102_stake_partial",
    "C102_rewards_partial",
    "C102_distributor_partial",
    "C102_stake_refuted",
    "C102_rewards_refuted",
    "C102_distributor_refuted"
   ],
   "note": "Proved while owner and settings are still those of version one. Refuted otherwise for each contract: the only migration message resets them, so a former owner has the contract back, even after ownership was given up."
  },
  {
   "property": "C103",
   "status": "proved",
   "theorems": [
    "C103_authority",
    "C103_once",
    "C103_not_while_paused"
   ],
   "note": "One single-choice module beside others; the votes are shown to meet the threshold when its percentage is at least one billionth (see C04). The voting module is an oracle and not replaced."
  },
  {
   "property": "C104",
   "status": "proved",
   "theorems": [
    "C104_acts_mandated",
    "C104_changes_are_acts",
    "C104_nothing_before"
   ],
   "note": "For DAOs that are their own admin with this one module enabled; the proposals carried out neither nominate an admin nor create modules."
  },
  {
   "property": "C105",
   "status": "partial",
   "theorems": [
    "C105_executes_partial",
    "C105_pause_ends_partial",
    "C105_stays_executable_refuted"
   ],
   "note": "Proved while the DAO is not paused and the module enabled. Refuted otherwise: with close-on-failure, executing a passed proposal while the DAO is paused ends it for good, and where execution is open to all a stranger can do it."
  },
  {
   "property": "C106",
   "status": "proved",
   "theorems": [
    "C106_only_the_dao",
    "C106_while_enabled",
    "C106_complete",
    "C106_core"
   ],
   "note": "dao-migrator with the core, for any behaviour of the other contracts (which do not change the core during the transaction). The list of performed migrations is a permutation of the planned ones."
  },
  {
   "property": "C107",
   "status": "partial",
   "theorems": [
    "C107_tested_partial",
    "C107_kept_partial",
    "C107_powers_refuted"
   ],
   "note": "Proved: the sampled answers agree (C107_tested_partial) and, with the migration of dao-proposal-single of this repository, every proposal module keeps all its data (C107_kept_partial). The full claim is false: only one account's voting power at one height is compared, so new code that changes other powers passes (C107_powers_refuted)."
  },
  {
   "property": "C108",
   "status": "partial",
   "theorems": [
    "C108_can_be_upgraded_partial",
    "C108_any_module_refuted"
   ],
   "note": "False: a single proposal module without any proposal makes every upgrade of the DAO fail (C108_any_module_refuted). With a proposal in each module and a cw4 voting module it can be upgraded (C108_can_be_upgraded_partial)."
  },
  {
   "property": "C109",
   "status": "partial",
   "theorems": [
    "C109_accepted_partial",
    "C109_result_partial",
    "C109_idle_partial",
    "C109_no_rights_partial",
    "C109_nonempty_refuted",
    "C109_books"
   ],
   "note": "Everything but the last sentence is proved, with the chain's fan-token module modelled from its documentation and creation taken not to call contracts. The documentation of NewFanToken says that initial_balances cannot be empty; this is not checked (C109_nonempty_refuted): the DAO then owns a token nobody has, so nobody can vote."
  },
  {
   "property": "C110",
   "status": "proved",
   "theorems": [
    "C110_native",
    "C110_checked",
    "C110_kinds",
    "C110_transfer_accepted",
    "C110_transfer_exact"
   ],
   "note": "packages/cw-denom. Strings are bytes; address validation and the TokenInfo query are oracles; bank and cw20 are standard."
  },
  {
   "property": "C111",
   "status": "proved",
   "theorems": [
    "C111_when",
    "C111_same_rule",
    "C111_given_policy",
    "C111_kept",
    "C111_old_deposits_paid",
    "C111_once"
   ],
   "note": "Who could propose under the old configuration is stated from its one flag: the code of version 2.4.1 is not part of the repository. Recorded deposits have the same form in both versions."
  },
  {
   "property": "C112",
   "status": "partial",
   "theorems": [
    "C112_newer_partial",
    "C112_upgrade_partial",
    "C112_upgrade_result_partial",
    "C112_downgrade_refuted",
    "C112_pre_release_refuted"
   ],
   "note": "False for six contracts that compare the texts of versions: 2.10.0 counts as older than 2.5.0, whose code then overwrites the record (C112_downgrade_refuted), and the record of the pre-release 2.5.0-rc.1 is not replaced by 2.5.0 (C112_pre_release_refuted). Proved for releases whose major and minor numbers have one digit (C112_newer_partial), and for dao-rewards-distributor, which compares versions (C112_upgrade_partial). Build metadata are not modelled."
  },
  {
   "property": "C113",
   "status": "proved",
   "theorems": [
    "C113_paid_back_at_most_once",
    "C113_right_party",
    "C113_paid_on_completion",
    "C113_nothing_else_leaves"
   ],
   "note": "What receivers of the submitted hook are told is not modelled."
  },
  {
   "property": "C114",
   "status": "proved",
   "theorems": [
    "C114_deposit_taken",
    "C114_creates_what_was_sent",
    "C114_wrong_coins_refused",
    "C114_no_failed_transfer",
    "C114_records_kept",
    "C114_every_submission",
    "C114_lists_disjoint_and_open",
    "C114_only_dao_updates"
   ],
   "note": "Titles and descriptions are not modelled."
  },
  {
   "property": "C115",
   "status": "partial",
   "theorems": [
    "C115_report_goes_through_partial",
    "C115_rewards_are_shown_partial",
    "C115_same_block_refuted",
    "C115_large_funding_refuted"
   ],
   "note": "False: if rewards are handed out at once in the block in which a member stakes, the amount per unit of power is worked out with the power at the start of that block; with one base unit staked before, 10^24 staked and 10^15 handed out, the product of power and amount per unit exceeds 256 bits from the next block on, every report naming the member is refused at every later block, and the member cannot leave (C115_same_block_refuted). Also above about 1.15 times 10^38 units of funding (C115_large_funding_refuted). Proved for histories without such handing out and without exchange of contracts (tame), funded with at most 10^38."
  },
  {
   "property": "C116",
   "status": "partial",
   "theorems": [
    "C116_token_as_asked",
    "C116_made_iff_possible",
    "C116_dao_owns",
    "C116_only_dao_accepts",
    "C116_history",
    "C116_holders_stake",
    "C116_active_possible_partial",
    "C116_percent_refuted",
    "C116_dao_listed_refuted",
    "C116_exchange_refuted"
   ],
   "note": "Proved: the set-up succeeds exactly for possible messages, everyone gets exactly what is listed, no allowance or restriction is left, the DAO owns the issuer when it is created with it, everyone listed can stake. False: a percentage threshold counts the reserved tokens of the DAO, so that everything those listed hold may not suffice (C116_percent_refuted); the check against an absolute threshold nobody can meet counts tokens listed for the DAO itself (C116_dao_listed_refuted); when an existing DAO exchanges its voting module the callback is not carried out, so the module, not the DAO, owns the issuer until the DAO accepts (C116_exchange_refuted). That the threshold can be met is proved without percentages and with the DAO not listed."
  },
  {
   "property": "C117",
   "status": "partial",
   "theorems": [
    "C117_is_a_history",
    "C117_within_funding_partial",
    "C117_claims_succeed_partial",
    "C117_stake_changes_go_through_partial",
    "C117_hook_first_refuted",
    "C117_late_hook_refuted"
   ],
   "note": "False however they are connected: if the DAO adds the distributor to the hooks before a distribution names the module, the distributor refuses every report and no member can stake or unstake (C117_hook_first_refuted); if it adds it later, whoever staked in between is promised rewards for the time before, far beyond the funding (C117_late_hook_refuted). Proved when the distributor is on the list whenever stakes change after the distribution was made, its contracts are not exchanged and nothing is handed out at once in a block in which stakes changed before; stake changes go through with the distributor the only receiver and at most 10^38 paid in."
  },
  {
   "property": "C118",
   "status": "partial",
   "theorems": [
    "C118_backing",
    "C118_who_can_take",
    "C118_powers_untouched",
    "C118_unstake_partial",
    "C118_collect_partial",
    "C118_restraint_suffices_partial",
    "C118_force_refuted",
    "C118_burner_refuted",
    "C118_freeze_refuted",
    "C118_denied_votes_refuted"
   ],
   "note": "False: the owner of the issuer can transfer staked tokens out of the module by force (C118_force_refuted), an account with an allowance to burn, not only the owner, can burn staked tokens of others (C118_burner_refuted) - the members keep their voting power but the last to leave gets nothing -, and a freeze or the denylist keeps tokens in (C118_freeze_refuted; whoever is denied still votes, C118_denied_votes_refuted). Proved: the balance is exactly stakes and claims plus what was given less what was taken (C118_backing); only owner, burners with allowance and the admin of the denomination take (C118_who_can_take); no use of the issuer changes voting power; where nothing was taken and the bank lets coins pass members can leave; a DAO created with its token that never sets burners, hook, admin or owner and forces no transfer leaves everybody able to (C118_restraint_suffices_partial)."
  },
  {
   "property": "C119",
   "status": "partial",
   "theorems": [
    "C119_tok_history",
    "C119_tok_backed",
    "C119_tok_stakes",
    "C119_tok_powerless_partial",
    "C119_tok_helpless",
    "C119_cw20_history",
    "C119_cw20_backed",
    "C119_cw20_stakes",
    "C119_cw20_powerless_partial",
    "C119_cw20_helpless",
    "C119_nft_history",
    "C119_nft_backed",
    "C119_nft_stakes",
    "C119_nft_powerless_partial",
    "C119_nft_helpless",
    "C119_grp_history",
    "C119_grp_backed",
    "C119_grp_stakes",
    "C119_grp_powerless_partial",
    "C119_grp_helpless",
    "C119_role_history",
    "C119_role_backed",
    "C119_role_stakes",
    "C119_role_powerless_partial",
    "C119_role_helpless",
    "C119_onft_history",
    "C119_onft_backed",
    "C119_onft_stakes",
    "C119_onft_powerless_partial",
    "C119_onft_helpless",
    "C119_calls",
    "C119_quorum_refuted"
   ],
   "note": "False where a quorum is asked for: those who vote no can make up the quorum, so that members who would not have had enough make the DAO act because others declined (C119_quorum_refuted). Proved for all six voting modules: a joint history is one of the DAO with the answers of the final state of the voting module (history), the holdings behind the votes meet the threshold whenever messages are carried (backed), holdings are those at the beginning of the block (stakes), and under thresholds that compare yes to everything a coalition that is short in every block cannot make a sovereign DAO act or change (powerless); under any threshold one that would be short with any number of others voting no (helpless). The voting module is called only by outsiders and by messages the DAO sends that are not for the proposal module (C119_calls)."
  },
  {
   "property": "C120",
   "status": "partial",
   "theorems": [
    "C120_setup",
    "C120_owner",
    "C120_as_asked",
    "C120_safe_partial",
    "C120_leaves_partial",
    "C120_unstake_partial",
    "C120_collect_partial",
    "C120_operator_takes_refuted",
    "C120_operator_votes_refuted",
    "C120_never_active_refuted"
   ],
   "note": "False: the set-up messages are sent as they are in the name of the module. They may make somebody an operator of the module, who can take every token staked later (C120_operator_takes_refuted) and can send the module its own tokens again and again for any number of votes without ever owning one (C120_operator_votes_refuted); a token minted to the module itself counts when the active threshold is checked and can never be staked, so that the DAO never becomes active (C120_never_active_refuted). Proved: the DAO gets the collection whatever is asked (C120_setup), only it mints (C120_owner); where the messages only mint the collection is as asked for (C120_as_asked), staked and unbonding tokens are there and untouchable, one vote each (C120_safe_partial), leave only to their staker (C120_leaves_partial) and can be taken out (C120_unstake_partial, C120_collect_partial)."
  },
  {
   "property": "C121",
   "status": "proved",
   "theorems": [
    "C121_authority",
    "C121_once",
    "C121_not_while_paused"
   ],
   "note": "Every step of every interleaving is lawful (C121_authority); a proposal is carried out at most once (C121_once) and not while the DAO is paused, unless the module is also the admin (C121_not_while_paused)."
  },
  {
   "property": "C122",
   "status": "proved",
   "theorems": [
    "C122_acts_mandated",
    "C122_changes_are_acts",
    "C122_nothing_before"
   ],
   "note": "For histories whose options carried out nominate no admin, create no module and set no voting module."
  },
  {
   "property": "C123",
   "status": "partial",
   "theorems": [
    "C123_executes_partial",
    "C123_pause_ends_partial",
    "C123_stays_executable_refuted"
   ],
   "note": "False: while the DAO is paused anybody can execute a passed proposal of a module that lets anybody execute and closes proposals on failure, which ends the proposal without its messages (C123_stays_executable_refuted, as C105). Proved: execution works where the DAO is not paused and has the module enabled (C123_executes_partial); the pause ends it (C123_pause_ends_partial)."
  },
  {
   "property": "C124",
   "status": "partial",
   "theorems": [
    "C124_tok_history",
    "C124_tok_backed",
    "C124_tok_stakes",
    "C124_tok_powerless_partial",
    "C124_cw20_history",
    "C124_cw20_backed",
    "C124_cw20_stakes",
    "C124_cw20_powerless_partial",
    "C124_nft_history",
    "C124_nft_backed",
    "C124_nft_stakes",
    "C124_nft_powerless_partial",
    "C124_grp_history",
    "C124_grp_backed",
    "C124_grp_stakes",
    "C124_grp_powerless_partial",
    "C124_role_history",
    "C124_role_backed",
    "C124_role_stakes",
    "C124_role_powerless_partial",
    "C124_onft_history",
    "C124_onft_backed",
    "C124_onft_stakes",
    "C124_onft_powerless_partial",
    "C124_calls",
    "C124_alone_refuted"
   ],
   "note": "False: those who vote for none of the options can make up the quorum, so that members who would not have had enough make the DAO act because others declined (C124_alone_refuted). Proved for all six voting modules: a joint history is one of the DAO with the answers of the final state of the voting module (history), the option carried out has strictly more holdings behind it than every other and all votes meet the quorum (backed), holdings are those at the beginning of the block (stakes), and a coalition that would be short in every block even with others of less weight declining cannot make a sovereign DAO act or change (powerless); the voting module is called only by outsiders and by messages of the DAO (C124_calls)."
  },
  {
   "property": "C125",
   "status": "proved",
   "theorems": [
    "C125_authority",
    "C125_once",
    "C125_not_while_paused"
   ],
   "note": "Every step of every interleaving is lawful (C125_authority); a proposal is carried out at most once (C125_once) and not while the DAO is paused, unless the module is also the admin (C125_not_while_paused)."
  },
  {
   "property": "C126",
   "status": "proved",
   "theorems": [
    "C126_acts_mandated",
    "C126_changes_are_acts",
    "C126_nothing_before"
   ],
   "note": "For histories whose options carried out nominate no admin, create no module and set no voting module."
  },
  {
   "property": "C127",
   "status": "partial",
   "theorems": [
    "C127_executes_partial",
    "C127_waits_partial",
    "C127_pause_ends_partial",
    "C127_stays_executable_refuted"
   ],
   "note": "False: while the DAO is paused a single member, even one who ranked the winner last, can execute a passed proposal that closes on failure, which ends it without its messages (C127_stays_executable_refuted). Proved: every member can execute it where the DAO is not paused and has the module enabled (C127_executes_partial); it stays passed until somebody with power at its start executes it (C127_waits_partial); what a pause does (C127_pause_ends_partial)."
  },
  {
   "property": "C128",
   "status": "partial",
   "theorems": [
    "C128_tok_history",
    "C128_tok_backed",
    "C128_tok_stakes",
    "C128_tok_powerless_partial",
    "C128_cw20_history",
    "C128_cw20_backed",
    "C128_cw20_stakes",
    "C128_cw20_powerless_partial",
    "C128_nft_history",
    "C128_nft_backed",
    "C128_nft_stakes",
    "C128_nft_powerless_partial",
    "C128_grp_history",
    "C128_grp_backed",
    "C128_grp_stakes",
    "C128_grp_powerless_partial",
    "C128_role_history",
    "C128_role_backed",
    "C128_role_stakes",
    "C128_role_powerless_partial",
    "C128_onft_history",
    "C128_onft_backed",
    "C128_onft_stakes",
    "C128_onft_powerless_partial",
    "C128_calls",
    "C128_alone_refuted"
   ],
   "note": "History, backing, stakes and calls are proved for all six voting modules. The last sentence is false where the group alone is short of the quorum: rankings that put none of the above first still count towards it (C128_alone_refuted). Proved where the group together with decliners of less power than it would still be short (C128_*_powerless_partial); the DAO may then execute none of the above, which has no messages."
  },
  {
   "property": "C129",
   "status": "partial",
   "theorems": [
    "C129_covered_partial",
    "C129_never_fails_partial",
    "C129_stays_partial",
    "C129_settled_partial",
    "C129_withdraw_refuted",
    "C129_replaced_refuted",
    "C129_withdraw"
   ],
   "note": "False as stated: a passed proposal whose message withdraws the coins of the module takes its own deposit too, so its completion hook fails and the module is dropped (C129_withdraw_refuted); if the DAO installs another module, deposits of open proposals are not returned (C129_replaced_refuted). Proved: holdings and hooks for every coin the DAO does not withdraw (C129_covered_partial, C129_never_fails_partial); the module stays and every deposit is settled if the DAO withdraws nothing, asks for native coins only, and keeps the module (C129_stays_partial, C129_settled_partial). A cw20 can refuse a transfer for reasons of its own, so deposits in cw20 tokens are not covered."
  },
  {
   "property": "C130",
   "status": "partial",
   "theorems": [
    "C130_covered_partial",
    "C130_never_fails_partial",
    "C130_stays_partial",
    "C130_settled_partial",
    "C130_withdraw_refuted",
    "C130_replaced_refuted",
    "C130_withdraw"
   ],
   "note": "False as stated, as for single choice: a passed proposal whose message withdraws the coins of the module takes its own deposit too, so its completion hook fails and the module is dropped (C130_withdraw_refuted); if the DAO installs another module, deposits of open proposals are not returned (C130_replaced_refuted). Proved: holdings and hooks for every coin the DAO does not withdraw (C130_covered_partial, C130_never_fails_partial); the module stays and every deposit is settled if the DAO withdraws nothing, asks for native coins only, and keeps the module (C130_stays_partial, C130_settled_partial). Deposits in cw20 tokens are not covered, since a cw20 can refuse a transfer for reasons of its own."
  },
  {
   "property": "C131",
   "status": "partial",
   "theorems": [
    "C131_tally",
    "C131_stand",
    "C131_who_exchanges",
    "C131_electorate_partial",
    "C131_answers_partial",
    "C131_not_stuck_partial",
    "C131_mandate_partial",
    "C131_small_share_refuted",
    "C131_stuck_refuted",
    "C131_only_yes_refuted",
    "C131_nobody_executes_refuted"
   ],
   "note": "False as stated: an open proposal keeps its total but asks the new module for powers, so an account with four in a billion can pass a majority proposal made under a module with a small total (C131_small_share_refuted), an abstention larger than the total makes the proposal and the list of proposals fail for ever (C131_stuck_refuted), a voter may be able to vote yes only (C131_only_yes_refuted), and a passed proposal may have nobody to execute it (C131_nobody_executes_refuted). Proved: tallies, terms and ballots stand in every history (C131_tally, C131_stand); the rest if, at each exchange, voting has ended on every proposal other than those executed, closed or vetoed and those for whose electorate both modules give the same answers (C131_electorate_partial, C131_answers_partial, C131_not_stuck_partial, C131_mandate_partial)."
  },
  {
   "property": "C132",
   "status": "partial",
   "theorems": [
    "C132_tally",
    "C132_stand",
    "C132_who_exchanges",
    "C132_electorate_partial",
    "C132_answers_partial",
    "C132_not_stuck_partial",
    "C132_mandate_partial",
    "C132_small_share_refuted",
    "C132_nobody_votes_refuted",
    "C132_silent_refuted",
    "C132_nobody_executes_refuted"
   ],
   "note": "False as stated: an open proposal keeps its total but asks the new module for powers, so an account with four in a billion meets a majority quorum of a proposal made under a module with a small total (C132_small_share_refuted); without re-voting nobody may be able to vote (C132_nobody_votes_refuted); with a minimum voting period the status and the list of proposals may fail until voting ends (C132_silent_refuted); and a passed proposal may have nobody to execute it (C132_nobody_executes_refuted). Proved: tallies, terms and ballots stand in every history (C132_tally, C132_stand); the rest if, at each exchange, voting has ended on every proposal other than those executed, closed or vetoed and those for whose electorate both modules give the same answers (C132_electorate_partial, C132_answers_partial, C132_not_stuck_partial, C132_mandate_partial)."
  },
  {
   "property": "C133",
   "status": "partial",
   "theorems": [
    "C133_decided",
    "C133_each",
    "C133_only",
    "C133_in_step_partial",
    "C133_source",
    "C133_veto_refuted",
    "C133_void_refuted"
   ],
   "note": "False as stated: vetoing a proposal of the approver, or executing one whose submission cannot be proposed (too large, or with the vote of somebody without power), makes the completion hook fail; the approver is dropped from its proposal module, the submission stays pending, and nobody can submit anything to the first DAO (C133_veto_refuted, C133_void_refuted). Proved: what is approved or rejected was so decided by the votes of the other DAO (C133_decided), each submission has one proposal (C133_each, C133_only), and every proposal of the first DAO is an approved submission (C133_source), until the approving DAO calls the approver back; the converse, that what is decided there is approved or rejected here, as long as the approver is its pre-propose module (C133_in_step_partial)."
  },
  {
   "property": "C134",
   "status": "proved",
   "theorems": [
    "C134_terms",
    "C134_who",
    "C134_anybody",
    "C134_to_whom",
    "C134_stages",
    "C134_native",
    "C134_owner",
    "C134_nobody",
    "C134_made"
   ],
   "note": "C134_made is an equivalence. entitled and directed (VAuthSpec.v) state who may send which message and where each sub-message goes, in terms of the instantiate message. Integers are in range (fits_vinit)."
  },
  {
   "property": "C135",
   "status": "partial",
   "theorems": [
    "C135_accepted",
    "C135_distribute",
    "C135_parts",
    "C135_accrue_partial",
    "C135_collect",
    "C135_snipe_refuted",
    "C135_empty_refuted",
    "C135_token_refuted"
   ],
   "note": "The last sentence is false: whoever stakes just before a distribution and leaves just after it takes a part of rewards that accrued before (C135_snipe_refuted), what is distributed while nobody stakes goes to the first who does (C135_empty_refuted). A distributor set up with another token than the staking contract is accepted and can never pay (C135_token_refuted), so C135_accepted assumes that it serves the contract. The rest is proved; C135_accrue_partial holds over any history in which somebody always stakes."
  },
  {
   "property": "C136",
   "status": "partial",
   "theorems": [
    "C136_is_a_history",
    "C136_accepts",
    "C136_made",
    "C136_within_funding_partial",
    "C136_claims_succeed_partial",
    "C136_updates_go_through_partial",
    "C136_wrong_caller_refuted",
    "C136_late_hook_refuted"
   ],
   "note": "False however they are connected: with the voting module named as hook caller instead of its group the distributor refuses the report and no member can be added or removed (C136_wrong_caller_refuted); with the hook added late, a member let in meanwhile is promised rewards for the time before, far beyond the funding (C136_late_hook_refuted). That the distributor sees the powers of the module is proved of every history (C136_is_a_history). The rest is proved when the distributor is among the hooks of the group whenever members change after the distribution was made, its contracts are not exchanged and nothing is handed out at once in a block in which members changed before; updates go through with the distributor the only receiver and at most 10^38 paid in."
  },
  {
   "property": "C137",
   "status": "partial",
   "theorems": [
    "C137_tok_pays_partial",
    "C137_tok_claims_partial",
    "C137_tok_shares",
    "C137_cw20_pays_partial",
    "C137_cw20_claims_partial",
    "C137_cw20_shares",
    "C137_nft_pays_partial",
    "C137_nft_claims_partial",
    "C137_nft_shares",
    "C137_grp_pays_partial",
    "C137_grp_claims_partial",
    "C137_grp_shares",
    "C137_role_pays_partial",
    "C137_role_claims_partial",
    "C137_role_shares",
    "C137_onft_pays_partial",
    "C137_onft_claims_partial",
    "C137_onft_shares",
    "C137_earlier_height_refuted",
    "C137_later_height_refuted"
   ],
   "note": "False for any height: made after members left for a height before, the distributor divides the powers of then by the total of now and runs dry (C137_earlier_height_refuted); made for a height to come, power that moves is paid twice (C137_later_height_refuted). Proved for heights not after the block the distributor is made in at which the total power is not above that of this block, in particular for that block itself, with redistributions for the same height only, and for claims of tokens that do not refuse transfers. Shares are of the total recorded at the making, which is that of the height itself if the two coincide. C137_*_shares is proved of every height in question."
  },
  {
   "property": "C138",
   "status": "partial",
   "theorems": [
    "C138_is_a_history",
    "C138_accepts",
    "C138_within_funding_partial",
    "C138_claims_succeed_partial",
    "C138_stake_changes_go_through_partial",
    "C138_hook_first_refuted",
    "C138_wrong_caller_refuted",
    "C138_late_hook_refuted"
   ],
   "note": "False in whatever order they are set up: with the hook added before a distribution names the NFT module, every report is refused and nobody can unstake (C138_hook_first_refuted); with the voting module named as hook caller instead of cw20-stake, likewise (C138_wrong_caller_refuted); with the hook added later, whoever staked unnoticed is promised rewards for the time before, beyond the funding (C138_late_hook_refuted). Proved when the distributor is among the receivers whenever stakes change after the distribution was made and the staking contract is its hook caller, its contracts are not exchanged and nothing is handed out at once in a block in which stakes changed before; changes of stakes go through with at most 10^38 paid in, if the other receivers refuse nothing. C138_is_a_history and C138_accepts need none of this."
  },
  {
   "property": "C139",
   "status": "partial",
   "theorems": [
    "C139_stand",
    "C139_counts",
    "C139_status_answers",
    "C139_not_stuck",
    "C139_at_most_once",
    "C139_dispatch_is_winner",
    "C139_who_exchanges",
    "C139_electorate_partial",
    "C139_voting_goes_on_partial",
    "C139_mandate_partial",
    "C139_small_share_refuted",
    "C139_nobody_votes_refuted",
    "C139_nobody_executes_refuted"
   ],
   "note": "The sentence after Moreover is false in general: the powers are asked of the module in force, so that a proposal open at the exchange can be executed with three in a billion of the power (C139_small_share_refuted), votes can become impossible (C139_nobody_votes_refuted), and even after calm exchanges nobody may have power for the height of a passed proposal, so that nobody can execute it (C139_nobody_executes_refuted). Proved if exchanges are calm: voting has ended on all proposals not yet executed or closed, or both modules give the same powers for its height (C139_electorate_partial, C139_voting_goes_on_partial, C139_mandate_partial). The other parts are proved for all histories."
  },
  {
   "property": "C140",
   "status": "partial",
   "theorems": [
    "C140_authority",
    "C140_once",
    "C140_not_while_paused",
    "C140_disabled_for_good",
    "C140_acts_mandated_partial",
    "C140_changes_are_acts_partial",
    "C140_nothing_before_partial",
    "C140_foreign_refuted"
   ],
   "note": "The sentence after Moreover is false if a module of another kind is created: it makes the DAO act without a proposal (C140_foreign_refuted). Proved if only modules of the three kinds are created (C140_acts_mandated_partial, C140_changes_are_acts_partial, C140_nothing_before_partial). The other parts are proved for all histories."
  },
  {
   "property": "C141",
   "status": "partial",
   "theorems": [
    "C141_mints",
    "C141_reweighs_partial",
    "C141_burns_partial",
    "C141_burn_refuted"
   ],
   "note": "Minting is proved in full. A role without weight cannot be burned once its holder has no other weight, because the holder is no longer listed (C141_burn_refuted); a role that has been transferred need not be burnable either (C63_transfer_refuted). Burning is proved for roles with weight, and changing weights for all roles, whose holders were not party to a transfer."
  },
  {
   "property": "C142",
   "status": "proved",
   "theorems": [
    "C142_executes",
    "C142_changes_modules",
    "C142_never_without"
   ],
   "note": "The number of modules stays within 32 bits; addresses of new contracts are unused. Messages that are not empty; the effects of the messages themselves are those of the other properties."
  },
  {
   "property": "C143",
   "status": "partial",
   "theorems": [
    "C143_total_before",
    "C143_total_after",
    "C143_vested_most",
    "C143_vested_start",
    "C143_distributable",
    "C143_duration_none",
    "C143_duration_linear",
    "C143_duration_partial",
    "C143_duration_refuted",
    "C143_past_refuted",
    "C143_new_partial",
    "C143_instavest_refuted",
    "C143_instavest_linear_refuted"
   ],
   "note": "Proved for TotalToVest, Vested, and Distributable at present and later times; VestDuration for linear schedules. False: for a schedule in steps VestDuration leaves out the time before the first step (C143_duration_refuted, contrary to its documentation); Distributable fails for a time at which less had vested than has been paid since (C143_past_refuted); a vest in steps whose steps have all passed, or a linear one in its last second, is complete when it is made in spite of the check against it (C143_instavest_refuted, C143_instavest_linear_refuted). Proved instead: everything has vested once the first step and the duration have passed; a vest that starts now or later has vested nothing."
  },
  {
   "property": "C144",
   "status": "proved",
   "theorems": [
    "C144_shares_within",
    "C144_shares_lack",
    "C144_share_waits",
    "C144_everybody_leaves",
    "C144_stakers_exist"
   ],
   "note": "Leaving: for pools of less than half the largest 128-bit number and stakers with less than 100 open claims (C70 has the counterexample beyond); the hook receivers accept. Waiting: as long as somebody has a stake after each step in between."
  },
  {
   "property": "C145",
   "status": "proved",
   "theorems": [
    "C145_taking_out",
    "C145_at_once_out",
    "C145_putting_in",
    "C145_at_once_in"
   ],
   "note": "The parts follow one another without other calls in between (those only raise the value of a share, C37)."
  },
  {
   "property": "C146",
   "status": "proved",
   "theorems": [
    "C146_share_of_every_block",
    "C146_all_handed_out"
   ],
   "note": "Assumes, as C51, that the hook is installed whenever stakes change once rewards were funded. The bound of 10^38 on the fundings is part of the statement (C77 shows what happens beyond)."
  },
  {
   "property": "C147",
   "status": "partial",
   "theorems": [
    "C147_handed_out_partial",
    "C147_no_stakers_refuted",
    "C147_remainder_refuted",
    "C147_out_of_reach"
   ],
   "note": "Proved: the rewards of the blocks in which somebody has a stake reach the stakers. False: the rewards of blocks in which nobody has a stake (C147_no_stakers_refuted) and the remainder of the funding divided by the number of blocks (C147_remainder_refuted) stay in the contract in every continuation in which the hook is installed; later fundings do not pick them up and there is no call to withdraw. Migrations of the contract are not modelled."
  },
  {
   "property": "C148",
   "status": "partial",
   "theorems": [
    "C148_not_more_partial",
    "C148_no_power_refuted",
    "C148_leftover_refuted"
   ],
   "note": "Proved: together they are never more than was brought (under the conditions of C54). Not less is false: rewards of blocks in which nobody has voting power are reported as distributed, can be claimed by nobody and cannot be withdrawn (C148_no_power_refuted); when a distribution whose period is over is funded again, what was left undistributed of the earlier funding drops out of the books - by anybody, with one token, if funding is open (C148_leftover_refuted). Both losses last: in every history that follows, under the same conditions, no more is paid out than what is left on the books and what is brought later."
  }
 ]
}