{
 "claims": [
  {
   "property": "C01",
   "status": "proved",
   "theorems": [
    "C01_votes_backed",
    "C01_collision_free_addresses",
    "C01_collision_free_voters",
    "C01_refuted"
   ],
   "note": "Proved for every history without storage-prefix collisions (no two voter/address pairs with equal voter-address concatenation); refuted without that proviso."
  },
  {
   "property": "C02",
   "status": "proved",
   "theorems": [
    "C02_total_is_sum",
    "C02_no_saturation",
    "C02_refuted"
   ],
   "note": "Same proviso as C01; refuted without it."
  },
  {
   "property": "C03",
   "status": "proved",
   "theorems": [
    "C03_tallies_match",
    "C03_zero_vote_refuted",
    "C03_collision_refuted"
   ],
   "note": "Proved for histories without zero-power votes and without name collisions; refuted without either proviso."
  },
  {
   "property": "C04",
   "status": "proved",
   "theorems": [
    "C04_power_accounted",
    "C04_refuted"
   ],
   "note": "Exact equation proved when every unlock names a locked position; refuted otherwise (double unlock)."
  },
  {
   "property": "C05",
   "status": "proved",
   "theorems": [
    "C05_mpdao_conserved",
    "C05_imports"
   ],
   "note": "Every call in every reachable state; the exact effect of the two imports is proved too."
  },
  {
   "property": "C06",
   "status": "proved",
   "theorems": [
    "C06_solvent",
    "C06_deficit_is_imported",
    "C06_withdrawal_funded",
    "C06_failed_withdrawal_restored",
    "C06_rejected_deposit_refunded",
    "C06_repointed_refuted",
    "C06_imports_refuted"
   ],
   "note": "Composed model of meta-vote, the mpDAO token and the stNEAR token with every receipt scheduled in any order and able to fail. Shown with the stated provisos (no imports, stNEAR address not pointed to the mpDAO token); without either proviso it is refuted by a witness."
  },
  {
   "property": "C07",
   "status": "proved",
   "theorems": [
    "C07_failed_transfer_restores",
    "C07_success_changes_nothing",
    "C07_private",
    "C07_withdrawal_amount"
   ],
   "note": "Every state and amount at callback time (unless the balance would overflow u128)."
  },
  {
   "property": "C08",
   "status": "proved",
   "theorems": [
    "C08_time_lock"
   ],
   "note": "Every history with non-decreasing time, every voter and horizon. Refunded withdrawals are added back. All credits count: deposits, locked claims, imported positions."
  },
  {
   "property": "C09",
   "status": "proved",
   "theorems": [
    "C09_relock",
    "C09_relock_partial_amount"
   ],
   "note": "Exact effect of both re-lock calls on every stored position, balance and locked amount."
  },
  {
   "property": "C10",
   "status": "proved",
   "theorems": [
    "C10_formula",
    "C10_monotone",
    "C10_split",
    "C10_part"
   ],
   "note": "Formula, monotonicity, split loss of at most one unit and partial-unlock bound for all inputs."
  },
  {
   "property": "C11",
   "status": "proved",
   "theorems": [
    "C11_position_power"
   ],
   "note": "Every position of every reachable state whose period is a multiple of 3 days."
  },
  {
   "property": "C12",
   "status": "proved",
   "theorems": [
    "C12_positions_bounded"
   ],
   "note": "Every reachable state; no proviso."
  },
  {
   "property": "C13",
   "status": "proved",
   "theorems": [
    "C13_addresses_bounded",
    "C13_refuted"
   ],
   "note": "max_voting_positions + 1 holds for every history; the documented bound is refuted."
  },
  {
   "property": "C14",
   "status": "proved",
   "theorems": [
    "C14_one_locked_per_period",
    "C14_refuted"
   ],
   "note": "Proved for histories without extend-days; refuted with it."
  },
  {
   "property": "C15",
   "status": "proved",
   "theorems": [
    "C15_growth_in_bounds",
    "C15_all_below_3600",
    "C15_periods_in_bounds",
    "C15_refuted"
   ],
   "note": "Growth only inside the configured bounds; all periods below 3600; all periods in bounds when the configuration is quiet; refuted with extend-days."
  },
  {
   "property": "C16",
   "status": "proved",
   "theorems": [
    "C16_unclaimed_totals",
    "C16_accumulated"
   ],
   "note": "Every reachable state; no proviso."
  },
  {
   "property": "C17",
   "status": "proved",
   "theorems": [
    "C17_distribution_exact",
    "C17_exact_list_accepted"
   ],
   "note": "Every state, list and message, in both directions."
  },
  {
   "property": "C18",
   "status": "proved",
   "theorems": [
    "C18_claims_bounded",
    "C18_stnear_claim_paid"
   ],
   "note": "Every history, per account."
  },
  {
   "property": "C19",
   "status": "proved",
   "theorems": [
    "C19_voter_can_lock",
    "C19_refuted"
   ],
   "note": "Proved for registered voters; refuted for accounts that are not."
  },
  {
   "property": "C20",
   "status": "proved",
   "theorems": [
    "C20_owner_config",
    "C20_operator_lock_filters",
    "C20_constants",
    "C20_setters_exact",
    "C20_setters_available"
   ],
   "note": "Every call, every state."
  },
  {
   "property": "C21",
   "status": "proved",
   "theorems": [
    "C21_other_voters_untouched",
    "C21_refuted"
   ],
   "note": "Proved for every call after every history with collision-free vote targets; refuted for colliding names."
  },
  {
   "property": "C22",
   "status": "proved",
   "theorems": [
    "C22_delegation_consistent",
    "C22_confirm_never_stuck",
    "C22_remove_never_stuck"
   ],
   "note": "Every reachable state; confirming and removing never panic on internal lookups."
  },
  {
   "property": "C23",
   "status": "proved",
   "theorems": [
    "C23_delegated_actions"
   ],
   "note": "Every reachable state and caller; frame on all other accounts; the claim pays the delegate."
  },
  {
   "property": "C24",
   "status": "proved",
   "theorems": [
    "C24_delegation_consent",
    "C24_changes",
    "C24_requests",
    "C24_reviewed_request_refuted"
   ],
   "note": "History theorem: the delegate asked and the operator confirmed that request; exact list of calls that change a delegate or a request; refuted that the reviewed request is the confirmed one."
  },
  {
   "property": "C25",
   "status": "proved",
   "theorems": [
    "C25_removals_rejected",
    "C25_votes_kept",
    "C25_rebalance_refuted"
   ],
   "note": "unvote, unvote_delegated and rebalance to zero are rejected in every state; no other call lowers votes (collision-free histories without zero votes; operator mirroring excepted); refuted for rebalance to a smaller amount."
  },
  {
   "property": "C26",
   "status": "proved",
   "theorems": [
    "C26_withdraw_all_pays",
    "C26_withdraw_all_zero"
   ],
   "note": "withdraw_all pays exactly get_balance and leaves zero withdrawable."
  },
  {
   "property": "C27",
   "status": "proved",
   "theorems": [
    "C27_flags",
    "C27_partition",
    "C27_views_total"
   ],
   "note": "Flags mutually exclusive; the three sums and the balance partition the deposits, for every state."
  },
  {
   "property": "C28",
   "status": "proved",
   "theorems": [
    "C28_clear_exact",
    "C28_out_of_range"
   ],
   "note": "Exact effect of clear_locking_position and its panics."
  },
  {
   "property": "C29",
   "status": "proved",
   "theorems": [
    "C29_unvote_succeeds",
    "C29_delegated_unvote_succeeds",
    "C29_refuted"
   ],
   "note": "Own and delegated unvote; refuted when zero-power votes are allowed."
  },
  {
   "property": "C30",
   "status": "proved",
   "theorems": [
    "C30_vote",
    "C30_vote_delegated",
    "C30_unvote",
    "C30_unvote_delegated",
    "C30_rebalance"
   ],
   "note": "Exact effect of vote, rebalance, unvote and the delegated forms, with a full frame condition."
  },
  {
   "property": "C31",
   "status": "proved",
   "theorems": [
    "C31_mirror_effect",
    "C31_mirror_total"
   ],
   "note": "Exact effect, votes dropped in listing order by an independent rule; totality for all well-formed position lists (includes termination of the removal loop)."
  },
  {
   "property": "C32",
   "status": "proved",
   "theorems": [
    "C32_migrated_data_refuted",
    "C32_migrated_data_goes_to_old_contract"
   ],
   "note": "Refuted; exact effect on user data proved."
  },
  {
   "property": "C33",
   "status": "proved",
   "theorems": [
    "C33_migrate_preserves",
    "C33_only_contract_account",
    "C33_only_once",
    "C33_reachable"
   ],
   "note": "Down to the Borsh bytes of the STATE record, for every content of the other records; a second migrate() is refused."
  },
  {
   "property": "C34",
   "status": "proved",
   "theorems": [
    "C34_claims",
    "C34_stnear_claims",
    "C34_airdrop_accounts",
    "C34_delegates",
    "C34_voters"
   ],
   "note": "Every reachable state, every page size; get_voters for collision-free histories; get_delegates needs in-range starts because it panics otherwise."
  },
  {
   "property": "C35",
   "status": "proved",
   "theorems": [
    "C35_storage_maps_are_maps",
    "C35_iteration_order"
   ],
   "note": "Any number of collections, any operation sequence, at the level of the storage records; a collection is re-created only while empty (needed: see the example)."
  },
  {
   "property": "C36",
   "status": "proved",
   "theorems": [
    "C36_own_registration",
    "C36_operator_list",
    "C36_nobody_else"
   ],
   "note": "Every state; including that no other call changes the data."
  },
  {
   "property": "C37",
   "status": "proved",
   "theorems": [
    "C37_deposits",
    "C37_consumed",
    "C37_period_text"
   ],
   "note": "Every state, caller, sender, amount and message; JSON decoding of the pair is a parameter."
  },
  {
   "property": "C38",
   "status": "proved",
   "theorems": [
    "C38_tallies_exact",
    "C38_tallies_never_below",
    "C38_refuted"
   ],
   "note": "Exact for every interleaving in which nobody votes on a proposal while an own vote on it is in flight; tallies are never below the recorded sums in any interleaving; refuted without the proviso."
  },
  {
   "property": "C39",
   "status": "proved",
   "theorems": [
    "C39_remove_vote_total"
   ],
   "note": "Every reachable state, including those where double votes made the tally exceed the records."
  },
  {
   "property": "C40",
   "status": "proved",
   "theorems": [
    "C40_records_agree"
   ],
   "note": "Every reachable state."
  },
  {
   "property": "C41",
   "status": "proved",
   "theorems": [
    "C41_ids_dense",
    "C41_creation_order",
    "C41_permanent"
   ],
   "note": "Every history with fewer than 2^32 proposals."
  },
  {
   "property": "C42",
   "status": "proved",
   "theorems": [
    "C42_final_states",
    "C42_final_flags"
   ],
   "note": "Every continuation of every history with fewer than 2^32 proposals."
  },
  {
   "property": "C43",
   "status": "proved",
   "theorems": [
    "C43_execution_needs_quorum",
    "C43_refuted"
   ],
   "note": "Quorum half proved for every event; the for > against half is refuted."
  },
  {
   "property": "C44",
   "status": "proved",
   "theorems": [
    "C44_executable_at_the_end",
    "C44_missed_forever",
    "C44_refuted"
   ],
   "note": "Succeeds exactly in the end millisecond; after it the proposal stays unexecuted in every continuation (no start call in flight); the claim as stated is refuted."
  },
  {
   "property": "C45",
   "status": "proved",
   "theorems": [
    "C45_vote_calls_only_in_window",
    "C45_removals_only_in_window",
    "C45_counted_votes_cast_in_window",
    "C45_refuted"
   ],
   "note": "Rejection of calls outside the window, and window at the time of the call for every counted vote, proved; counting at answer time inside the window is refuted."
  },
  {
   "property": "C46",
   "status": "proved",
   "theorems": [
    "C46_vote_weight",
    "C46_failed_answers_count_nothing"
   ],
   "note": "Every answer in every reachable state."
  },
  {
   "property": "C47",
   "status": "proved",
   "theorems": [
    "C47_signer_has_the_role",
    "C47_settings_change_only_by_role",
    "C47_refuted"
   ],
   "note": "Holds for the signer; refuted for the direct caller."
  },
  {
   "property": "C48",
   "status": "proved",
   "theorems": [
    "C48_floor_bounded",
    "C48_quorum"
   ],
   "note": "Every event in every reachable state with fewer than 2^32 proposals."
  },
  {
   "property": "C49",
   "status": "proved",
   "theorems": [
    "C49_window_set_once",
    "C49_refuted"
   ],
   "note": "Holds with at most one start call per proposal in flight and no start call in the start millisecond; refuted otherwise."
  },
  {
   "property": "C50",
   "status": "proved",
   "theorems": [
    "C50_never_active"
   ],
   "note": "Every history with non-decreasing time, every query time not before its last event."
  },
  {
   "property": "C51",
   "status": "proved",
   "theorems": [
    "C51_content_edits"
   ],
   "note": "Every event in every reachable state with fewer than 2^32 proposals."
  },
  {
   "property": "C52",
   "status": "proved",
   "theorems": [
    "C52_creation",
    "C52_refuted"
   ],
   "note": "Every interleaving; that the creator is the checked account is refuted."
  },
  {
   "property": "C53",
   "status": "proved",
   "theorems": [
    "C53_last_write",
    "C53_authorised",
    "C53_roles",
    "C53_remove",
    "C53_count",
    "C53_pages"
   ],
   "note": "Whole contract, map at the level of its storage records; any callers, any history."
  },
  {
   "property": "C54",
   "status": "proved",
   "theorems": [
    "C54_supply_is_sum",
    "C54_calls",
    "C54_history"
   ],
   "note": "FungibleToken (near-contract-standards, not in /repo) is modelled from the published library; the theorem ranges over arbitrary private resolve calls, a superset of the real ones."
  },
  {
   "property": "C55",
   "status": "proved",
   "theorems": [
    "C55_stnear_conserved"
   ],
   "note": "Every call in every reachable state."
  },
  {
   "property": "C56",
   "status": "proved",
   "theorems": [
    "C56_solvent",
    "C56_claim_funded",
    "C56_failed_claim_restored",
    "C56_rejected_transfer_refunded",
    "C56_repointed_refuted"
   ],
   "note": "The stNEAR contract is not in /repo; its ledger is assumed to behave like the token of test-meta-token. Refuted by a witness if the owner repoints the stNEAR address."
  },
  {
   "property": "C57",
   "status": "proved",
   "theorems": [
    "C57_exit",
    "C57_power_accounted_per_account",
    "C57_shortfall_permanent",
    "C57_double_unlock_freezes",
    "C57_refuted"
   ],
   "note": "exit theorem by appending to the history (unvote all, unlock all, withdraw_all); permanence of a shortfall by a per-account deficit in the invariant; C57_refuted exhibits an account that can never leave."
  },
  {
   "property": "C58",
   "status": "proved",
   "theorems": [
    "C58_imports_need_authority"
   ],
   "note": "Follows from the accounting theorem of C05 and the guards of the two importing calls. The previous governance contract is the current setting (the owner can change it, C20)."
  },
  {
   "property": "C59",
   "status": "proved",
   "theorems": [
    "C59_minimum_deposit",
    "C59_partial_unlock",
    "C59_no_empty_position",
    "C59_positions_above_minimum_refuted"
   ],
   "note": "Growth of locked tokens, remainder of partial unlocks and absence of empty positions proved; the claim about the size of every locked position is refuted with a four-call history. relock_position has no minimum in the code."
  },
  {
   "property": "C60",
   "status": "proved",
   "theorems": [
    "C60_list_of_accounts"
   ],
   "note": "Exact: who enters, who leaves and with what payment, and the condition after a withdrawal."
  },
  {
   "property": "C61",
   "status": "proved",
   "theorems": [
    "C61_no_dot"
   ],
   "note": "Invariant over the three delegation maps."
  },
  {
   "property": "C62",
   "status": "proved",
   "theorems": [
    "C62_state_reported",
    "C62_state_unique"
   ],
   "note": "The specification `reported` is a separate relation; C62_state_unique shows it determines one state. Overflow of for + abstain is the only excluded case."
  },
  {
   "property": "C63",
   "status": "proved",
   "theorems": [
    "C63_page",
    "C63_all_pages"
   ],
   "note": "`few_proposals`: fewer than 2^32 ids, the range of the u32 id."
  },
  {
   "property": "C64",
   "status": "proved",
   "theorems": [
    "C64_window"
   ],
   "note": "Shown for one step from any reachable state, hence for all histories."
  },
  {
   "property": "C65",
   "status": "proved",
   "theorems": [
    "C65_vote_power",
    "C65_quorum",
    "C65_creation",
    "C65_within_current_power_refuted"
   ],
   "note": "Proved in the composed model Gov.v. Hypothesis `linked`: the proposal contract's registered voting contract is this one and stays so. The stronger reading (recorded power at most the current total power) is false of the code: C65_within_current_power_refuted."
  },
  {
   "property": "C66",
   "status": "proved",
   "theorems": [
    "C66_no_token_votes_twice",
    "C66_any_voting_period_refuted"
   ],
   "note": "Positive theorem with the proviso on periods; C66_any_voting_period_refuted shows the proviso is needed (40 day voting period, 30 day unbonding)."
  },
  {
   "property": "C67",
   "status": "proved",
   "theorems": [
    "C67_votes_by_voter",
    "C67_votes_by_address",
    "C67_zero_vote_refuted"
   ],
   "note": "Positive theorems for the account and address views; C67_zero_vote_refuted shows that without \"no vote of zero power\" the per-object view and the list can disagree."
  },
  {
   "property": "C68",
   "status": "proved",
   "theorems": [
    "C68_metavote_keys_distinct",
    "C68_voter_address_keys_refuted",
    "C68_mpip_keys_distinct",
    "C68_kv_keys_distinct",
    "C68_token_keys_distinct",
    "C68_metavote_collections_separate",
    "C68_collections_separate",
    "C68_prefixes_must_be_free_refuted"
   ],
   "note": "Keys of all four contracts, and a refinement of the collections down to bytes. C68_voter_address_keys_refuted is the exception named in the statement (the collision-free hypothesis of C03, C21 and others); C68_prefixes_must_be_free_refuted shows the proviso on prefixes is needed. keccak256 is an arbitrary 32-byte function; near-sdk's key layout is trusted."
  },
  {
   "property": "C69",
   "status": "proved",
   "theorems": [
    "C69_call",
    "C69_history",
    "C69_claims_cost_refuted",
    "C69_delegated_claim_refuted",
    "C69_mpip_call",
    "C69_mpip_paid",
    "C69_mpip_kept_refuted",
    "C69_mpip_queries_refuted"
   ],
   "note": "Positive statements for every call and history; four natural stronger claims are refuted by witnesses (each stNEAR claim and each query costs the contract one yoctoNEAR, delegated claims keep any deposit, a failed proposal creation keeps the deposit)."
  },
  {
   "property": "C70",
   "status": "proved",
   "theorems": [
    "C70_accepted_exactly",
    "C70_roles",
    "C70_minters",
    "C70_resolve",
    "C70_notified"
   ],
   "note": "The FungibleToken library itself is not in /repo and modelled from its published source."
  },
  {
   "property": "C71",
   "status": "proved",
   "theorems": [
    "C71_accepted",
    "C71_no_tokens"
   ],
   "note": "Provisos: no colliding storage prefixes (C01), no zero-power votes (C03), position lists without repetitions. too_big panics remain possible only for calls that add tokens."
  },
  {
   "property": "C72",
   "status": "proved",
   "theorems": [
    "C72_step",
    "C72_init",
    "C72_no_hidden_state"
   ],
   "note": "Refinement of a complete ledger specification, over all histories; the 128-bit proviso names the panic (too_big)."
  },
  {
   "property": "C73",
   "status": "proved",
   "theorems": [
    "C73_step",
    "C73_result",
    "C73_init",
    "C73_determined",
    "C73_no_hidden_state"
   ],
   "note": "Refinement of a complete specification with exact overflow conditions."
  },
  {
   "property": "C74",
   "status": "proved",
   "theorems": [
    "C74_accounts",
    "C74_lists",
    "C74_others"
   ],
   "note": "all views of meta-vote; hypotheses collision_free and no_zero_votes as in C72"
  },
  {
   "property": "C75",
   "status": "proved",
   "theorems": [
    "C75_proposals",
    "C75_votes"
   ],
   "note": "Vote views for every reachable state; proposal views while fewer than 2^32 proposals exist (ids are u32)."
  },
  {
   "property": "C76",
   "status": "proved",
   "theorems": [
    "C76_accepted",
    "C76_history",
    "C76_determined",
    "C76_no_hidden_state"
   ],
   "note": "Closes the 128-bit proviso of C72: acceptance is an equivalence; histories are refined as a whole."
  },
  {
   "property": "C77",
   "status": "proved",
   "theorems": [
    "C77_accepted",
    "C77_power_bounded",
    "C77_world",
    "C77_heard"
   ],
   "note": "Contract level (C77_accepted) with the owed tokens as the bound, and world level (C77_world) with the supply as the bound. The mirrored positions and the colliding prefixes are excluded by hypothesis."
  },
  {
   "property": "C78",
   "status": "proved",
   "theorems": [
    "C78_collect",
    "C78_withdraw",
    "C78_airdrop",
    "C78_migrate",
    "C78_reward",
    "C78_history"
   ],
   "note": "Equality of states, not only of views. Mirroring is not a sequence of single mirrorings (each replaces all positions) and is left out."
  },
  {
   "property": "C79",
   "status": "proved",
   "theorems": [
    "C79_private",
    "C79_reorder",
    "C79_commute",
    "C79_collision_refuted"
   ],
   "note": "Settings, announcing and confirming delegations, reward distributions, migration and mirroring act on more than one account and are not in the sequences."
  },
  {
   "property": "C81",
   "status": "proved",
   "theorems": [
    "C81_replay",
    "C81_events",
    "C81_events_refuted"
   ],
   "note": "Which events FungibleToken emits is taken from the published near-contract-standards, whose source is not in /repo: transfers, refunds and the burn of a refund to a closed account emit one, storage_unregister none. C81_replay holds even if the library emitted no line of its own for closing, since the contract's line \"Closed @.. with ..\" is read. Memos and the JSON text are not modelled."
  },
  {
   "property": "C82",
   "status": "proved",
   "theorems": [
    "C82_sent",
    "C82_sent_stnear",
    "C82_held",
    "C82_tokens",
    "C82_repointed_refuted"
   ],
   "note": "Excludes pointing the stNEAR address to the mpDAO token (C82_sent, C82_held) or away from stNEAR (C82_sent_stnear), which is shown necessary."
  },
  {
   "property": "C80",
   "status": "proved",
   "theorems": [
    "C80_replay",
    "C80_text",
    "C80_render",
    "C80_text_refuted",
    "C80_godspeed",
    "C80_deposit",
    "C80_deposit_from_refuted",
    "C80_mirror",
    "C80_direction",
    "C80_positions",
    "C80_one_line",
    "C80_many_lines"
   ],
   "note": "Votes of zero and colliding storage names are excluded as in C73. That NEAR aborts calls writing over 100 lines is outside the model; the theorem only shows that the number of lines of one mirroring call is not bounded."
  },
  {
   "property": "C83",
   "status": "proved",
   "theorems": [
    "C83_votes_covered",
    "C83_never_exceeded",
    "C83_power_covered",
    "C83_tokens_held",
    "C83_extend_refuted"
   ],
   "note": "C83_never_exceeded has no proviso. C83_votes_covered gives the equality; the power part needs collision_free because mirroring with colliding names can drift a voter's power. C83_extend_refuted: extend ignores the configured maximum."
  },
  {
   "property": "C84",
   "status": "proved",
   "theorems": [
    "C84_accounted",
    "C84_settled",
    "C84_surplus_stays",
    "C84_payment_ends",
    "C84_deposit_ends",
    "C84_callback_refuted"
   ],
   "note": "For mpDAO no mirroring/migration and the stNEAR address not pointed to the mpDAO token (`calm`, as in C06); for stNEAR the address is kept. C84_callback_refuted: with a failing callback receipt the account loses the payment."
  },
  {
   "property": "C85",
   "status": "proved",
   "theorems": [
    "C85_never_taken",
    "C85_never_taken_imports",
    "C85_mirrored_refuted",
    "C85_dropped_refuted"
   ],
   "note": "Mirrored accounts and lost callbacks are shown to be real exceptions by the two _refuted theorems."
  },
  {
   "property": "C86",
   "status": "proved",
   "theorems": [
    "C86_held",
    "C86_bound",
    "C86_received_refuted",
    "C86_deposit",
    "C86_unregister"
   ],
   "note": "The fee of the owner's account, registered free of charge at deployment, can be withdrawn: C86_received_refuted."
  },
  {
   "property": "C87",
   "status": "proved",
   "theorems": [
    "C87_exit",
    "C87_claim",
    "C87_imports_refuted"
   ],
   "note": "Existence of the calls with their success and the final token balance; stNEAR claims; refuted with mirrored positions, for which the contract may hold no tokens."
  },
  {
   "property": "C88",
   "status": "proved",
   "theorems": [
    "C88_stored",
    "C88_sent"
   ],
   "note": "Also closes the gap between the model's unbounded naturals and the Rust integers."
  },
  {
   "property": "C89",
   "status": "proved",
   "theorems": [
    "C89_stored",
    "C89_sent"
   ],
   "note": "Counterpart of C88 for mpip-contract; the token's supply and balances are covered by C54."
  },
  {
   "property": "C90",
   "status": "proved",
   "theorems": [
    "C90_pair",
    "C90_claims",
    "C90_round_trip"
   ],
   "note": "The voting model itself takes the readers as arbitrary functions, so all its theorems hold for this one; C91 instantiates them."
  },
  {
   "property": "C91",
   "status": "proved",
   "theorems": [
    "C91_one_meaning",
    "C91_accepted",
    "C91_effect",
    "C91_written"
   ],
   "note": "Hash assumption as in C72; needs that no vote of zero was cast (C25)."
  },
  {
   "property": "C92",
   "status": "proved",
   "theorems": [
    "C92_voters_hold_tokens",
    "C92_tallies_need_tokens",
    "C92_acceptance_needs_tokens",
    "C92_quorum_recorded_refuted",
    "C92_tallies_refuted"
   ],
   "note": "Positive theorems with the proviso on votes in flight; the two _refuted theorems show it is needed (the callback does not check again whether the account has voted)."
  },
  {
   "property": "C93",
   "status": "proved",
   "theorems": [
    "C93_round_trip",
    "C93_account_ids",
    "C93_system",
    "C93_voters_hold_tokens"
   ],
   "note": "Calls from outside carry values; failed callbacks of the proposal contract are gone here and wait for ever in Sys.v (list lost)."
  },
  {
   "property": "C94",
   "status": "proved",
   "theorems": [
    "C94_voting_contract",
    "C94_token",
    "C94_proposal_contract",
    "C94_kv_store",
    "C94_system",
    "C94_voting_history",
    "C94_voting_sizes",
    "C94_proposal_history",
    "C94_voters_hold_tokens"
   ],
   "note": "views, init methods and private callbacks called from outside change nothing and are not listed; migrate is C33"
  },
  {
   "property": "C95",
   "status": "proved",
   "theorems": [
    "C95_private",
    "C95_reorder",
    "C95_outcome",
    "C95_any_power_refuted"
   ],
   "note": "Closing, starting, creating and settings are not in the sequences. C95_any_power_refuted: with answers summing to more than u128 the order matters."
  },
  {
   "property": "C96",
   "status": "proved",
   "theorems": [
    "C96_voting_answers",
    "C96_voting_questions",
    "C96_voting_readable",
    "C96_voting_tells",
    "C96_proposal_answers",
    "C96_proposal_questions",
    "C96_proposal_readable",
    "C96_proposal_tells",
    "C96_token_answers",
    "C96_token_questions",
    "C96_token_readable",
    "C96_token_tells",
    "C96_kv_answers",
    "C96_kv_questions",
    "C96_kv_readable",
    "C96_kv_tells"
   ],
   "note": "Readability is proved with hypotheses that hold for what can be called: typed numbers (sized_call/sized_event), callers are account ids, fewer than 2^64 map entries."
  },
  {
   "property": "C97",
   "status": "proved",
   "theorems": [
    "C97_calls",
    "C97_determined",
    "C97_records",
    "C97_nothing_else",
    "C97_within",
    "C97_usual"
   ],
   "note": "near_bindgen, near_sdk collections and Borsh written from the published libraries; Borsh's UTF-8 check left out"
  },
  {
   "property": "C98",
   "status": "proved",
   "theorems": [
    "C98_calls",
    "C98_determined",
    "C98_records",
    "C98_reached",
    "C98_supply",
    "C98_few"
   ],
   "note": "near_bindgen, near_sdk collections, near-contract-standards and Borsh written from the published libraries; Borsh's UTF-8 check left out; `new` with metadata given by the caller, gas and events not in this model"
  },
  {
   "property": "C99",
   "status": "proved",
   "theorems": [
    "C99_calls",
    "C99_determined",
    "C99_records",
    "C99_nothing_else",
    "C99_before_new",
    "C99_reached"
   ],
   "note": "near_bindgen, near_sdk collections and Borsh written from the published libraries; Borsh's UTF-8 check, gas and the log line not in this model; a hash collision is excluded by hypothesis"
  },
  {
   "property": "C100",
   "status": "proved",
   "theorems": [
    "C100_new",
    "C100_calls",
    "C100_records",
    "C100_ballots",
    "C100_once",
    "C100_before_new",
    "C100_future"
   ],
   "note": "The calls are typed; the JSON reader in front of them is C94's. near_bindgen, near_sdk collections and Borsh written from the published libraries; Borsh's UTF-8 check, gas, log lines and migrate not in this model; the views are not on bytes; a hash collision is excluded by hypothesis; that nothing else is in the storage is not claimed, since cleared vectors and dropped maps can leave records"
  },
  {
   "property": "C101",
   "status": "proved",
   "theorems": [
    "C101_calls",
    "C101_determined",
    "C101_records",
    "C101_before_new",
    "C101_reached"
   ],
   "note": "near_bindgen, near_sdk collections and Borsh written from the published libraries; the views and migrate are not among the methods of this account (it refuses them, the code answers views without changing the storage); Borsh's UTF-8 check, gas and log lines are not in this model; a hash collision is excluded by hypothesis"
  },
  {
   "property": "C102",
   "status": "proved",
   "theorems": [
    "C102_views",
    "C102_questions",
    "C102_answers",
    "C102_before_new",
    "C102_account"
   ],
   "note": "near_sdk collections and Borsh written from the published libraries; an iterator is modelled as reading all keys before the values (same answer or panic); view gas limits and the texts of panics are not in this model; a hash collision is excluded by hypothesis"
  },
  {
   "property": "C103",
   "status": "proved",
   "theorems": [
    "C103_upgrade",
    "C103_seamless",
    "C103_before",
    "C103_only_self",
    "C103_before_new",
    "C103_account"
   ],
   "note": "the code of the version before is not in /repo: its storage is taken to be that of the present version but for the STATE record, as migrate.rs assumes by keeping every collection; near_sdk and Borsh written from the published libraries; a hash collision is excluded by hypothesis"
  }
 ]
}