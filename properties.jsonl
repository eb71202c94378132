{"id": "C01", "title": "Votes are always backed by locked tokens", "statement": "For every voter, get_available_voting_power + get_used_voting_power never exceeds the sum of voting_power over that voter's positions that are still locked (is_locked) in get_all_locking_positions.", "quantifier": "every sequence of calls, by any callers, with any arguments and block timestamps, starting from a freshly initialised contract, as long as no two distinct (voter, votable address) pairs that were voted on share the storage key voter-address; and refuted without that proviso", "why_tests_cant": "An invariant over unbounded histories of lock/unlock/relock/vote/mirror; the failing histories involve two accounts whose names collide after concatenation, which no example-based test enumerates.", "anchors": ["meta-vote-contract/src/lib.rs: unlock_position, unlock_partial_position, internal_create_voting_position, rebalance, internal_remove_voting_position, operator_mirror_lps", "meta-vote-contract/src/voter.rs: get_vote_position_for_address, sum_used_votes", "meta-vote-contract/src/locking_position.rs: increase_locking_position, internal_create_locking_position"]}
{"id": "C02", "title": "Contract total voting power is the sum over voters", "statement": "get_total_voting_power equals the sum, over all voters, of get_available_voting_power + get_used_voting_power; in particular the saturating subtraction in unlock never saturates.", "quantifier": "every sequence of calls, by any callers, with any arguments and block timestamps, starting from a freshly initialised contract (collision-free vote targets)", "why_tests_cant": "A global sum over an unbounded set of voters maintained incrementally by eight different entry points.", "anchors": ["meta-vote-contract/src/lib.rs: unlock_position, unlock_partial_position, locking_position_extend_days, operator_mirror_lps", "meta-vote-contract/src/locking_position.rs", "meta-vote-contract/src/view.rs: get_total_voting_power"]}
{"id": "C03", "title": "Tally of an object is the sum of the voters' votes", "statement": "For every votable address and object, get_total_votes equals the sum over all voters of get_votes_for_object.", "quantifier": "every sequence of calls, by any callers, with any arguments and block timestamps, starting from a freshly initialised contract in which nobody casts a zero-power vote and vote targets are collision-free; refuted without each proviso", "why_tests_cant": "Relates a global nested map with per-voter nested maps across unbounded histories; the counterexamples need a full exit and re-entry of a voter.", "anchors": ["meta-vote-contract/src/lib.rs: internal_create_voting_position, rebalance, internal_remove_voting_position", "meta-vote-contract/src/internal.rs: internal_increase_total_votes, state_internal_decrease_total_votes_for_address", "meta-vote-contract/src/withdraw.rs: internal_withdraw", "meta-vote-contract/src/voter.rs: is_empty"]}
{"id": "C04", "title": "Available power is exactly locked power minus used power", "statement": "The documented equation available_voting_power = sum(locked positions' voting power) - sum(votes) holds for every voter.", "quantifier": "every sequence of calls, by any callers, with any arguments and block timestamps, starting from a freshly initialised contract; holds when no unlock call targets a position that is already unlocking, refuted otherwise", "why_tests_cant": "Needs the absence of any history that breaks the equation; the breaking history unlocks the same position twice.", "anchors": ["meta-vote-contract/src/voter.rs: Voter.available_voting_power", "meta-vote-contract/src/lib.rs: unlock_position, unlock_partial_position"]}
{"id": "C05", "title": "mpDAO conservation of every call", "statement": "For every call, (mpDAO owed to voters: balances plus position amounts, plus unclaimed mpDAO) after + mpDAO sent out = the same before + mpDAO received, except the two calls that import positions from elsewhere (operator_mirror_lps, migration_create_lps).", "quantifier": "every state, every caller, every argument", "why_tests_cant": "Must hold for all argument values including duplicate indexes, zero amounts, boundary timestamps.", "anchors": ["meta-vote-contract/src/withdraw.rs", "meta-vote-contract/src/deposit.rs", "meta-vote-contract/src/lib.rs: claim_and_lock, unlock*, relock*, clear_locking_position", "meta-vote-contract/src/voter.rs: clear_fully_unlocked_positions"]}
{"id": "C06", "title": "The contract is always solvent in mpDAO", "statement": "In the composed system (token contract + meta-vote + in-flight promises) the contract's mpDAO token balance is at all times at least what it owes: balances + positions + unclaimed rewards + withdrawals in flight. Hence no ft_transfer issued by a withdrawal can fail for lack of contract funds.", "quantifier": "every interleaving of user calls, token transfers, ft_on_transfer deliveries, refunds, transfer executions and callbacks, in which the operator mirrors and the previous governance contract import nothing and the owner does not repoint the stNEAR address", "why_tests_cant": "Quantifies over all schedules of asynchronous receipts and failures.", "anchors": ["meta-vote-contract/src/withdraw.rs: transfer_mpdao_to_voter, after_transfer_mpdao_callback", "meta-vote-contract/src/deposit.rs: ft_on_transfer", "test-meta-token/src/lib.rs"]}
{"id": "C07", "title": "A failed withdrawal gives everything back", "statement": "If the token transfer of a withdrawal fails, the callback re-credits exactly the withdrawn amount to the same voter (re-creating the voter if it had been removed), whatever ran in between; if it succeeds the callback changes nothing. Only the contract itself can trigger the callback.", "quantifier": "every state at callback time, every amount", "why_tests_cant": "Arbitrary operations interleave between the withdrawal and its callback.", "anchors": ["meta-vote-contract/src/withdraw.rs: after_transfer_mpdao_callback, restore_transfer_to_mpdao"]}
{"id": "C08", "title": "Tokens stay locked for the full unbonding period", "statement": "For every voter and every time T: total mpDAO withdrawn (net of failed transfers) by that voter by time T is at most the sum of amounts credited to that voter (deposits, locked claims, imported positions) whose credit time plus chosen unbonding days is at most T. No sequence of unlock, partial unlock, extend, relock, partial relock, clear and withdraw gets tokens out earlier.", "quantifier": "every history with non-decreasing block time, every horizon T", "why_tests_cant": "A temporal property over all call sequences and all times, with swap-removed indexes and partial splits.", "anchors": ["meta-vote-contract/src/lib.rs: unlock_position, unlock_partial_position, locking_position_extend_days, relock_position, relock_partial_position, relock_from_balance, clear_locking_position", "meta-vote-contract/src/withdraw.rs", "meta-vote-contract/src/voter.rs: clear_fully_unlocked_positions"]}
{"id": "C09", "title": "Re-locking never shortens the remaining wait", "statement": "relock_position and relock_partial_position succeed on a position still unbonding only if the new period, counted from now, ends strictly later than the position's old release time; on success the relocked amount sits in a locked position of the requested period.", "quantifier": "every state, position, time and requested period", "why_tests_cant": "Boundary behaviour at every millisecond.", "anchors": ["meta-vote-contract/src/lib.rs: relock_position, relock_partial_position"]}
{"id": "C10", "title": "Voting power formula", "statement": "The voting power of amount a for d days is floor(a*10^18*d/60), the call fails exactly when d >= 3600 or a*10^18 or the result exceeds u128; it is monotone in both arguments and splitting an amount never gains power.", "quantifier": "all amounts and all periods", "why_tests_cant": "Full-range integer arithmetic with a 256-bit intermediate and rounding.", "anchors": ["meta-vote-contract/src/utils.rs: calculate_voting_power, proportional"]}
{"id": "C11", "title": "Every position carries the voting power of its amount and period", "statement": "For every position of every voter whose period is a multiple of 3 days (all documented 30-day steps), 60*voting_power = amount*10^18*days exactly, through any splits, merges, extensions and relocks.", "quantifier": "every sequence of calls, by any callers, with any arguments and block timestamps, starting from a freshly initialised contract", "why_tests_cant": "Rounding drift could accumulate through unbounded numbers of splits and merges.", "anchors": ["meta-vote-contract/src/locking_position.rs", "meta-vote-contract/src/lib.rs: unlock_partial_position, relock_partial_position, locking_position_extend_days", "meta-vote-contract/src/utils.rs"]}
{"id": "C12", "title": "Bound on the number of locking positions", "statement": "No voter ever has more than max_locking_positions locking positions, and the u8 cast of the position count never wraps.", "quantifier": "every sequence of calls, by any callers, with any arguments and block timestamps, starting from a freshly initialised contract", "why_tests_cant": "The check uses a truncating cast; only an invariant excludes the wrap-around.", "anchors": ["meta-vote-contract/src/locking_position.rs: internal_create_locking_position, create_unlocking_position"]}
{"id": "C13", "title": "Bound on the number of voted addresses", "statement": "No voter has votes on more than max_voting_positions distinct addresses (as documented); what holds is max_voting_positions + 1, and the number of objects inside an address is unbounded.", "quantifier": "every sequence of calls, by any callers, with any arguments and block timestamps, starting from a freshly initialised contract", "why_tests_cant": "Off-by-one in a limit only visible at the limit for every configured value.", "anchors": ["meta-vote-contract/src/lib.rs: internal_create_voting_position"]}
{"id": "C14", "title": "One locked position per unbonding period", "statement": "A voter never has two locked positions with the same period (deposits merge into the existing one). Holds for histories without locking_position_extend_days; refuted with it.", "quantifier": "every sequence of calls, by any callers, with any arguments and block timestamps, starting from a freshly initialised contract", "why_tests_cant": "Depends on the interplay of extend, deposit and relock in any order.", "anchors": ["meta-vote-contract/src/locking_position.rs: deposit_locking_position, internal_create_locking_position", "meta-vote-contract/src/lib.rs: locking_position_extend_days"]}
{"id": "C15", "title": "Unbonding periods respect the configured bounds", "statement": "Every deposit, claim-and-lock, relock and migration creates or grows a position whose period lies between min_unbond_period and max_unbond_period; every position's period is below 3600 days. Extending a position can exceed max_unbond_period (refuted), giving voting power beyond the documented 5x.", "quantifier": "every state, caller and argument; every reachable state for the 3600 bound", "why_tests_cant": "Needs all entry points and all arguments.", "anchors": ["meta-vote-contract/src/locking_position.rs: deposit_locking_position", "meta-vote-contract/src/lib.rs: locking_position_extend_days", "meta-vote-contract/src/utils.rs"]}
{"id": "C16", "title": "Unclaimed totals match individual claims", "statement": "get_total_unclaimed_mpdao equals the sum of get_claimable_mpdao over all accounts, and likewise for stNEAR; no account has a zero entry after a claim; accumulated distributed is at least the unclaimed total.", "quantifier": "every sequence of calls, by any callers, with any arguments and block timestamps, starting from a freshly initialised contract", "why_tests_cant": "Global sums over unbounded accounts and histories including failed transfers.", "anchors": ["meta-vote-contract/src/internal.rs: add_claimable, remove_claimable", "meta-vote-contract/src/deposit.rs: distribute_for_claims", "meta-vote-contract/src/withdraw.rs: after_transfer_stnear_callback"]}
{"id": "C17", "title": "Reward distribution is exact or rejected", "statement": "A for-claims transfer is accepted only from the mpDAO or stNEAR token contract and only if the listed amounts (in whole mpDAO, or 1e-4 stNEAR) add up exactly to the transferred amount; then each listed account's claimable grows by exactly its listed total and nobody else's changes.", "quantifier": "every distribution list (any length, duplicates, any values), any state", "why_tests_cant": "Unbounded lists with duplicates and overflow.", "anchors": ["meta-vote-contract/src/deposit.rs: ft_on_transfer, distribute_for_claims", "meta-vote-contract/src/internal.rs: add_claimable_mpdao, add_claimable_stnear"]}
{"id": "C18", "title": "Claims pay at most what was distributed", "statement": "A claim of mpDAO or stNEAR succeeds only up to the caller's claimable amount and reduces it by exactly the amount paid; a failed stNEAR transfer restores it; so over any history the amount claimed by an account plus what it can still claim equals what was distributed to it.", "quantifier": "every sequence of calls, by any callers, with any arguments and block timestamps, starting from a freshly initialised contract", "why_tests_cant": "Accounting identity over all histories and failed callbacks.", "anchors": ["meta-vote-contract/src/lib.rs: claim_and_lock, claim_stnear", "meta-vote-contract/src/evm_delegate.rs: delegated_claim_stnear", "meta-vote-contract/src/withdraw.rs: after_transfer_stnear_callback"]}
{"id": "C19", "title": "Anyone with claimable mpDAO can lock it", "statement": "An account with claimable mpDAO of at least the minimum deposit can always claim_and_lock it for an allowed period. Refuted: a holder that is not (or no longer) a registered voter is rejected.", "quantifier": "every reachable state", "why_tests_cant": "Requires a state combination (rewarded but not a voter) tests do not set up.", "anchors": ["meta-vote-contract/src/lib.rs: claim_and_lock", "meta-vote-contract/src/internal.rs: internal_get_voter_or_panic"]}
{"id": "C20", "title": "Only the owner and operator change configuration", "statement": "A call that changes owner, operator, stNEAR address, period bounds, registration cost, previous governance address succeeds only when the caller is the owner; lock-in filters only the operator; mpDAO address, minimum deposit and position limits never change.", "quantifier": "every state, caller and call", "why_tests_cant": "Negative property over all callers and all entry points.", "anchors": ["meta-vote-contract/src/internal.rs: assert_only_owner, assert_operator", "meta-vote-contract/src/lib.rs"]}
{"id": "C21", "title": "Calls do not touch other voters", "statement": "A call leaves get_voter_info of every account other than its target (the caller; or the delegated/mirrored/migrated/bonded-for account; or the callback's account) unchanged.", "quantifier": "every sequence of calls, by any callers, with any arguments and block timestamps, starting from a freshly initialised contract followed by any call (collision-free vote targets); refuted for colliding names", "why_tests_cant": "Frame property over all pairs of accounts, with shared storage prefixes.", "anchors": ["meta-vote-contract/src/lib.rs", "meta-vote-contract/src/voter.rs: get_vote_position_for_address", "meta-vote-contract/src/constants.rs: StorageKey"]}
{"id": "C22", "title": "EVM delegation is a consistent function", "statement": "get_delegate(e) = a if and only if e is listed in get_delegating_evm_addresses(a), each address is listed at most once and under at most one account.", "quantifier": "every sequence of calls, by any callers, with any arguments and block timestamps, starting from a freshly initialised contract", "why_tests_cant": "Two maps kept in sync by three entry points in any order.", "anchors": ["meta-vote-contract/src/evm_delegate.rs"]}
{"id": "C23", "title": "Delegated actions need the current delegation", "statement": "vote_delegated, unvote_delegated and delegated_claim_stnear for an EVM address succeed only if the caller is that address's current delegate, and act on that address's account only; stNEAR goes to the delegate.", "quantifier": "every reachable state, every caller", "why_tests_cant": "Negative property over all callers and histories.", "anchors": ["meta-vote-contract/src/evm_delegate.rs: verify_delegate, vote_delegated, unvote_delegated, delegated_claim_stnear"]}
{"id": "C24", "title": "Delegation needs consent of the account and the operator", "statement": "An EVM address's delegate becomes account a only by an operator confirmation, while the latest pre-delegation for that address was made by a itself; anyone else's later pre-delegation replaces it (so the operator's confirmation may confirm another request than the reviewed one: refuted).", "quantifier": "every sequence of calls, by any callers, with any arguments and block timestamps, starting from a freshly initialised contract", "why_tests_cant": "History-dependent authorisation; race between review and confirmation.", "anchors": ["meta-vote-contract/src/evm_delegate.rs: pre_delegate_evm_address, operator_confirm_delegated_evm_address"]}
{"id": "C25", "title": "Vote lock-in prevents removing votes", "statement": "While the lock-in filter is active, votes on matching objects cannot be reduced by their voter. Holds for unvote, unvote_delegated and rebalance to zero; refuted for rebalance to a smaller non-zero amount.", "quantifier": "every state inside the lock-in window, every object id", "why_tests_cant": "Substring match over all object ids; bypass through a different entry point.", "anchors": ["meta-vote-contract/src/lib.rs: internal_unvote, rebalance, set_lock_in_vote_filters"]}
{"id": "C26", "title": "Balance view is what withdraw_all pays", "statement": "If get_balance(v) > 0 then withdraw_all by v with one yocto attached succeeds, sends exactly get_balance(v) to v, and leaves balance zero and no fully unlocked position; if it is 0 the call fails.", "quantifier": "every reachable state of the composed system with bounded token supply, every time", "why_tests_cant": "Equality between a view and an effect for all states, and absence of any panic.", "anchors": ["meta-vote-contract/src/withdraw.rs: internal_withdraw, withdraw_all", "meta-vote-contract/src/view.rs: get_balance", "meta-vote-contract/src/voter.rs: get_unlocked_position_indexes, clear_fully_unlocked_positions"]}
{"id": "C27", "title": "Locked, unlocking and unlocked partition the positions", "statement": "At every time each position is exactly one of locked, unlocking, unlocked; get_locked_balance + get_unlocking_balance + get_balance equals raw balance plus the sum of all position amounts.", "quantifier": "every state, voter, time", "why_tests_cant": "All timestamps, boundary equality.", "anchors": ["meta-vote-contract/src/locking_position.rs: is_locked, is_unlocking, is_unlocked", "meta-vote-contract/src/view.rs", "meta-vote-contract/src/voter.rs: sum_locked, sum_unlocking, sum_unlocked"]}
{"id": "C28", "title": "Clearing positions clears exactly the requested unlocked ones", "statement": "clear_locking_position with a duplicate-free in-range index list removes exactly the listed positions that are fully unlocked, adds exactly their amounts to the balance, and keeps all other positions, despite swap-removal; an out-of-range index aborts the call.", "quantifier": "every position list, every index list in any order, every time", "why_tests_cant": "Interaction of sorting and swap-remove for all list shapes.", "anchors": ["meta-vote-contract/src/voter.rs: clear_fully_unlocked_positions, remove_position", "meta-vote-contract/src/lib.rs: clear_locking_position"]}
{"id": "C29", "title": "Votes can always be withdrawn", "statement": "A voter with votes on an object can always unvote it when no lock-in applies: the call does not panic and returns exactly those votes to the available voting power.", "quantifier": "every sequence of calls, by any callers, with any arguments and block timestamps, starting from a freshly initialised contract without zero-power votes and collisions; refuted otherwise", "why_tests_cant": "Absence of panics in every reachable state.", "anchors": ["meta-vote-contract/src/lib.rs: internal_unvote, internal_remove_voting_position", "meta-vote-contract/src/internal.rs: state_internal_decrease_total_votes_for_address"]}
{"id": "C30", "title": "Voting calls do exactly what they say", "statement": "vote adds the given power to the voter's votes on the object and to its tally and removes it from the available power; rebalance sets the votes to the given value and adjusts tally and available power by the difference; unvote removes them; all other votes and tallies are unchanged.", "quantifier": "every reachable state (no zero-power votes, collision-free), every argument", "why_tests_cant": "Exact functional effect including frame for all other objects and voters.", "anchors": ["meta-vote-contract/src/lib.rs: vote, rebalance, unvote"]}
{"id": "C31", "title": "Mirroring sets the account to the external positions", "statement": "After operator_mirror_lps the mirrored account's positions are exactly the given ones, available + used power equals their total power, votes are removed (first ones first) only as long as they exceed the new power, and the total voting power changes by exactly the difference. The vote-removal loop always terminates.", "quantifier": "every reachable state, every list of positions", "why_tests_cant": "Loop termination and exact accounting for every vote configuration.", "anchors": ["meta-vote-contract/src/lib.rs: operator_mirror_lps"]}
{"id": "C32", "title": "Migrated user data belongs to the migrated user", "statement": "migration_create_lps with associated data makes that data retrievable under the migrated voter. Refuted: it is stored under the calling (old governance) contract, and only for the first migrated user.", "quantifier": "every state, every voter id", "why_tests_cant": "The wrong key is only visible when looking the data up under the user's id.", "anchors": ["meta-vote-contract/src/lib.rs: migration_create_lps, get_airdrop_account"]}
{"id": "C33", "title": "State upgrade loses nothing", "statement": "migrate() preserves every view of the contract (voters, votes, claims, delegations, configuration, airdrop data) and only adds inactive lock-in filters; only the contract account can call it.", "quantifier": "every old state", "why_tests_cant": "Must hold for all states, field by field.", "anchors": ["meta-vote-contract/src/migrate.rs"]}
{"id": "C34", "title": "Paginated listings are complete and duplicate-free", "statement": "Concatenating get_voters / get_claims / get_stnear_claims / get_airdrop_accounts / get_delegates pages of any positive size lists every entry exactly once and only existing entries; the pages never panic for in-range requests.", "quantifier": "every reachable state, every page size", "why_tests_cant": "All sizes, page boundaries and swap-removed orders.", "anchors": ["meta-vote-contract/src/view.rs", "meta-vote-contract/src/lib.rs: get_airdrop_accounts", "meta-vote-contract/src/evm_delegate.rs: get_delegates"]}
{"id": "C35", "title": "Storage maps behave like finite maps with swap-remove order", "statement": "The on-chain map layout (key->index records plus key and value vectors) used by the contracts implements an ordered finite map: get returns the last inserted and not removed value, length and iteration agree, for any sequence of insert/remove/get on a collection created on clean storage, including dropping an empty collection and re-creating it.", "quantifier": "every sequence of operations", "why_tests_cant": "Refinement over unbounded operation sequences.", "anchors": ["meta-vote-contract/src/lib.rs: UnorderedMap fields", "meta-vote-contract/src/constants.rs: StorageKey", "mpip-contract/src/lib.rs: UnorderedMap fields", "kv-store-contract/src/lib.rs"]}
{"id": "C36", "title": "Airdrop registration is paid and authentic", "statement": "A user's own registration changes only the caller's entry, requires exactly the registration cost attached, and is visible afterwards; the operator's bulk setting overwrites exactly the listed keys with the last listed value.", "quantifier": "every state, caller, list", "why_tests_cant": "Unbounded lists with duplicates; all deposits.", "anchors": ["meta-vote-contract/src/lib.rs: update_airdrop_user_data, operator_multi_set_airdrop_data, check_if_registered_for_airdrops, get_airdrop_account"]}
{"id": "C37", "title": "Deposits need real tokens and the minimum amount", "statement": "A locking position grows through ft_on_transfer only when called by the mpDAO token contract with at least the minimum deposit; the message is a decimal u16 (credited to the sender) or, only for transfers from the owner, a [voter, days] pair (credited to that voter); the whole amount is always consumed.", "quantifier": "every caller, sender, amount and message", "why_tests_cant": "Message grammar over all strings and all callers.", "anchors": ["meta-vote-contract/src/deposit.rs: ft_on_transfer"]}
{"id": "C38", "title": "MPIP tallies equal the recorded votes", "statement": "For every proposal, the for/against/abstain tallies equal the sums of the voting power of the recorded votes of that type. Refuted: two vote calls by the same voter in flight at once are both counted while only one is recorded. Holds if no voter has two vote calls on a proposal in flight; tallies are never below the recorded sums.", "quantifier": "every interleaving of calls and callbacks", "why_tests_cant": "Requires a particular interleaving of asynchronous callbacks.", "anchors": ["mpip-contract/src/lib.rs: vote_proposal, vote_proposal_callback, remove_vote_proposal"]}
{"id": "C39", "title": "Removing a vote never gets stuck", "statement": "A voter who voted can remove the vote during the voting period; the call never underflows and subtracts exactly the recorded power from exactly the recorded side.", "quantifier": "every interleaving of calls and callbacks", "why_tests_cant": "Absence of underflow in every reachable state.", "anchors": ["mpip-contract/src/lib.rs: remove_vote_proposal"]}
{"id": "C40", "title": "Voter-side and proposal-side records agree", "statement": "has_voted / get_my_vote agree with the has_voted list of get_proposal_votes for every voter and proposal; get_total_voters counts exactly the accounts with at least one recorded vote.", "quantifier": "every interleaving of calls and callbacks", "why_tests_cant": "Two nested maps updated by separate code paths.", "anchors": ["mpip-contract/src/lib.rs", "mpip-contract/src/internal.rs: internal_has_voted, internal_get_voter_vote"]}
{"id": "C41", "title": "Proposal ids are dense and proposals permanent", "statement": "The k-th successful creation gets id k-1, no proposal is ever deleted or overwritten by a creation, its creator and id never change, and get_user_proposals_ids(a) lists exactly the proposals created by a, once each, in creation order.", "quantifier": "every history with fewer than 2^32 proposals", "why_tests_cant": "Uniqueness over unbounded histories.", "anchors": ["mpip-contract/src/lib.rs: create_proposal_callback, get_last_proposal_id, get_user_proposals_ids", "mpip-contract/src/mpip.rs: internal_create_proposal"]}
{"id": "C42", "title": "Cancelled and executed are final and exclusive", "statement": "Once a proposal is canceled it stays canceled and is never executed; once executed it stays executed and is never canceled; a proposal never returns to Draft.", "quantifier": "every history", "why_tests_cant": "Absorbing-state property over all call sequences.", "anchors": ["mpip-contract/src/lib.rs: cancel_proposal, process_voting_status, start_voting_period_callback", "mpip-contract/src/mpip.rs: internal_get_proposal_state"]}
{"id": "C43", "title": "Execution requires acceptance", "statement": "process_voting_status executes a proposal only if quorum was reached and for > against. Refuted for the second half: only the quorum (for + abstain) is checked.", "quantifier": "every state", "why_tests_cant": "Needs a state with quorum but majority against.", "anchors": ["mpip-contract/src/lib.rs: process_voting_status", "mpip-contract/src/internal.rs: internal_is_quorum_reached"]}
{"id": "C44", "title": "Accepted proposals can be executed", "statement": "After its voting period an accepted proposal can be marked executed by the operator. Refuted: it succeeds only in the single millisecond equal to the end timestamp; any later call does nothing forever.", "quantifier": "every accepted proposal, every later time", "why_tests_cant": "An exact-millisecond window is unobservable in normal tests.", "anchors": ["mpip-contract/src/lib.rs: process_voting_status", "mpip-contract/src/internal.rs: internal_proposal_is_on_voting"]}
{"id": "C45", "title": "Votes are counted only during the voting period", "statement": "A vote call or removal outside the voting window, or on a draft, canceled or executed proposal, is rejected. Refuted for counting: the callback counts the vote later without re-checking, even after the end or a cancellation.", "quantifier": "every interleaving of calls and callbacks with monotone time", "why_tests_cant": "Needs asynchronous timing.", "anchors": ["mpip-contract/src/lib.rs: vote_proposal, vote_proposal_callback", "mpip-contract/src/internal.rs: assert_proposal_is_on_voting"]}
{"id": "C46", "title": "Vote weight is the voter's locked voting power", "statement": "A counted vote has weight equal to the sum of voting_power over the positions reported as locked by the meta-vote answer, is at least 1, and a failed or missing answer counts nothing.", "quantifier": "every answer list, every state", "why_tests_cant": "Unbounded answer lists and failure cases.", "anchors": ["mpip-contract/src/internal.rs: internal_get_user_total_voting_power_from_promise", "mpip-contract/src/lib.rs: vote_proposal_callback"]}
{"id": "C47", "title": "MPIP administration needs the direct caller's authority", "statement": "Admin-only and operator-only calls take effect only if the account that directly calls the contract has the role. Refuted: the check uses the transaction signer, so any contract the admin calls can exercise admin rights. What holds: the signer has the role.", "quantifier": "every caller/signer combination", "why_tests_cant": "Signer differs from predecessor only in nested calls.", "anchors": ["mpip-contract/src/internal.rs: assert_only_admin, assert_only_operator, assert_only_operator_or_creator, assert_only_creator"]}
{"id": "C48", "title": "Quorum arithmetic", "statement": "The quorum stored when voting starts is floor(total voting power * quorum_floor / 10000), never above the total; quorum_floor never exceeds 10000; it is fixed from then on unless voting is started again.", "quantifier": "every total, every basis points value, every history", "why_tests_cant": "Full-range arithmetic.", "anchors": ["mpip-contract/src/internal.rs: internal_get_quorum", "mpip-contract/src/lib.rs: start_voting_period_callback, update_quorum_floor"]}
{"id": "C49", "title": "The voting window is set once", "statement": "Once a proposal's voting window is set it never changes. Refuted: two start calls in flight (or one in the same millisecond) restart it. Holds if at most one start call per proposal is in flight and time has advanced.", "quantifier": "every interleaving of calls and callbacks", "why_tests_cant": "Needs overlapping asynchronous calls.", "anchors": ["mpip-contract/src/lib.rs: start_voting_period, start_voting_period_callback"]}
{"id": "C50", "title": "The Active state is never observed", "statement": "With monotone time get_proposal_state never returns Active: a proposal goes from Draft directly to the voting process.", "quantifier": "every history with non-decreasing time", "why_tests_cant": "Unreachability over all histories.", "anchors": ["mpip-contract/src/mpip.rs: internal_get_proposal_state", "mpip-contract/src/internal.rs: internal_proposal_is_active"]}
{"id": "C51", "title": "Proposal content is editable only by its creator before voting", "statement": "Title, descriptions, body, data and extra of a proposal change only by update_proposal signed by its creator, on a proposal not canceled or executed whose voting has not started.", "quantifier": "every state and call", "why_tests_cant": "Negative property over all calls.", "anchors": ["mpip-contract/src/lib.rs: update_proposal"]}
{"id": "C52", "title": "Proposal creation needs threshold, storage deposit and an open contract", "statement": "A proposal is created only after a create call with the contract open and at least the storage cost attached, and an answer showing locked voting power of at least the threshold. The checked account is the direct caller while the recorded creator is the signer (refuted: creator meets the threshold).", "quantifier": "every interleaving, every answer", "why_tests_cant": "Asynchronous checks with two identities.", "anchors": ["mpip-contract/src/lib.rs: create_proposal, create_proposal_callback", "mpip-contract/src/mpip.rs: Mpip::new"]}
{"id": "C53", "title": "KV store is a map writable only by its operator", "statement": "get_value returns the last value written for the key and not removed since, for any sequence of set_value, set_values, remove_value; only the operator changes data, only the owner changes roles; get_kv_count is the number of keys with a value; pages list each entry exactly once.", "quantifier": "every sequence of calls by any callers", "why_tests_cant": "Refinement over unbounded sequences.", "anchors": ["kv-store-contract/src/lib.rs"]}
{"id": "C54", "title": "Token supply changes only by mint and burn", "statement": "The sum of balances equals ft_total_supply; it grows only by a minter's ft_mint and shrinks only by burn (or a refund to a closed account); transfers conserve it.", "quantifier": "every history including interleaved transfer-calls and refunds", "why_tests_cant": "Global sum over unbounded accounts and interleavings.", "anchors": ["test-meta-token/src/lib.rs"]}
{"id": "C55", "title": "stNEAR conservation of every call", "statement": "For every call, unclaimed stNEAR after + stNEAR sent out = unclaimed stNEAR before + stNEAR received (a transfer announced by the stNEAR token contract, or a payment reported as failed).", "quantifier": "every reachable state, every caller, every argument", "why_tests_cant": "Tests check single distributions and claims; this holds for each of the 36 calls in every state, including batch distributions with repeated accounts and claims racing with failed transfers.", "anchors": ["meta-vote-contract/src/internal.rs: add_claimable, remove_claimable", "meta-vote-contract/src/deposit.rs: distribute_for_claims", "meta-vote-contract/src/withdraw.rs: after_transfer_stnear_callback"]}
{"id": "C56", "title": "The contract is always solvent in stNEAR", "statement": "In the composed system (stNEAR token + meta-vote + in-flight promises) the contract's stNEAR balance is at all times at least the unclaimed stNEAR rewards plus stNEAR claims in flight; a claim's transfer never fails for lack of funds, a failed one is always put back, and a rejected transfer goes back in full.", "quantifier": "every interleaving of user calls, token transfers, deliveries, refunds, transfer executions, failures and callbacks in which the owner does not repoint the stNEAR address", "why_tests_cant": "Quantifies over all schedules of asynchronous receipts and failures.", "anchors": ["meta-vote-contract/src/withdraw.rs: transfer_stnear_to_voter, after_transfer_stnear_callback", "meta-vote-contract/src/deposit.rs: distribute_for_claims", "meta-vote-contract/src/lib.rs: claim_stnear"]}
{"id": "C57", "title": "Every account can take out everything it owns", "statement": "If the account itself never unlocked a position that was already unlocking and no lock-in filter applies, then calls of its own (withdraw every vote, unlock every locked position) all succeed, and withdraw_all 3600 days later pays exactly balance + all positions and removes the account, whatever other accounts do in between. Unlocking a position twice breaks this for good: locked positions of that power can never be unlocked again (shortfalls never shrink).", "quantifier": "every reachable state, every account, every later behaviour of other accounts", "why_tests_cant": "It is a possibility statement about all reachable states (any mixture of votes, partial unlocks, relocks, claims) and a for-ever statement about all futures.", "anchors": ["meta-vote-contract/src/lib.rs: unvote, unlock_position", "meta-vote-contract/src/withdraw.rs: withdraw_all", "meta-vote-contract/src/internal.rs"]}
{"id": "C58", "title": "Only the previous governance contract and the operator can create tokens on the books", "statement": "In every reachable state, if a successful call changes what the contract owes in mpDAO (balances, positions and unclaimed rewards of all accounts) by anything else than what it received and sent, then it is migration_create_lps called by the current previous governance contract or operator_mirror_lps called by the current operator.", "quantifier": "for all initial arguments, all histories of calls by any accounts, and every next call", "why_tests_cant": "A test tries the entry points with one wrong caller; that no other call, in any state, unbalances the books needs a case analysis over all calls and an accounting invariant.", "anchors": ["meta-vote-contract/src/lib.rs: migration_create_lps, operator_mirror_lps", "meta-vote-contract/src/internal.rs: assert_operator"]}
{"id": "C59", "title": "Minimum deposits", "statement": "Every call other than relock_position, locking_position_extend_days and the imports that increases an account's locked tokens of some unbonding period increases them by min_deposit_amount at least. A partial unlock leaves at least min_deposit_amount (and one mpDAO) locked and unlocks at least one mpDAO. With a positive minimum no position is ever empty, unless an empty one is imported. That every locked position has at least min_deposit_amount is false: all but one unit of an unlocking position can be relocked, and then the rest.", "quantifier": "for all initial arguments, histories, accounts, periods and next calls", "why_tests_cant": "The limits are checked in five functions with different code; a test covers one amount at one of them. The false form needs a history of four calls.", "anchors": ["meta-vote-contract/src/lib.rs: unlock_partial_position, relock_partial_position, relock_from_balance, claim_and_lock", "meta-vote-contract/src/deposit.rs: ft_on_transfer"]}
{"id": "C60", "title": "The list of accounts", "statement": "An account appears in the list of voters only through a deposit, an import or a returned withdrawal made for it. It disappears only through its own withdrawal that pays everything it has. After every withdrawal the account is listed exactly if it still has balance or positions.", "quantifier": "for all initial arguments, histories and next calls", "why_tests_cant": "The claim is about every call that does not touch the list as much as about those that do.", "anchors": ["meta-vote-contract/src/withdraw.rs: internal_withdraw", "meta-vote-contract/src/voter.rs: is_empty"]}
{"id": "C61", "title": "Delegated EVM addresses contain no dot", "statement": "In every reachable state no EVM address that is pre-delegated, delegated or listed for a delegate contains a dot, so that <address>.evmp.near is never a nested sub-account.", "quantifier": "for all initial arguments, histories and addresses", "why_tests_cant": "Three maps are filled in two steps by different callers; the check is made only in the first step.", "anchors": ["meta-vote-contract/src/evm_delegate.rs: pre_delegate_evm_address"]}
{"id": "C62", "title": "The reported state of a proposal is the one its data call for", "statement": "For every proposal of every reachable state and every time not before the last event, get_proposal_state succeeds (unless votes for plus abstentions overflow) and reports exactly one state: the one that the flags, voting window, quorum and tallies determine.", "quantifier": "for all initial arguments, time-ordered histories, later times and proposals", "why_tests_cant": "The state is recomputed from flags set by different calls and from the clock; the combinations that can occur depend on the whole history.", "anchors": ["mpip-contract/src/lib.rs: get_proposal_state", "mpip-contract/src/mpip.rs: internal_get_proposal_state"]}
{"id": "C63", "title": "Pages of proposals are exact", "statement": "get_proposals(from, limit) returns exactly the proposals with ids from, from+1, ... up to the limit, in order, or nothing when from is past the end; walking through pages of any size lists every proposal once.", "quantifier": "for all reachable states with fewer than 2^32 proposals, start indices, limits and page sizes", "why_tests_cant": "Completeness over all page sizes and numbers of proposals is an induction.", "anchors": ["mpip-contract/src/lib.rs: get_proposals"]}
{"id": "C64", "title": "Voting windows come only from a start and have the configured length", "statement": "The start, end and draft flag of a proposal change only when the answer to a start_voting_period query arrives; the window then begins at that moment and ends exactly one voting period, as configured at that moment, later.", "quantifier": "for all reachable states, proposals and events", "why_tests_cant": "It must be shown that none of the other calls and callbacks, in any order, touches a window.", "anchors": ["mpip-contract/src/lib.rs: start_voting_period", "mpip-contract/src/lib.rs: start_voting_period_callback"]}
{"id": "C65", "title": "Proposal votes, quorums and creation use the real voting power of one moment", "statement": "With the proposal contract linked to the voting contract, every recorded vote was cast by its voter inside the proposal's window and weighs exactly the power of the voter's locked positions in the voting contract at one moment between the vote call and its callback; the quorum is the configured share of the total voting power at one moment between start and opening; a creator had the required power locked. The recorded power is not bounded by the current total voting power (refuted: voters may unlock after voting).", "quantifier": "for all initial arguments of both contracts and all interleavings of calls, view calls (which may fail) and callbacks", "why_tests_cant": "It concerns all interleavings of two contracts with asynchronous queries; tests run one contract with mocked answers.", "anchors": ["mpip-contract/src/lib.rs: vote_proposal", "mpip-contract/src/lib.rs: vote_proposal_callback", "mpip-contract/src/lib.rs: start_voting_period_callback", "mpip-contract/src/lib.rs: create_proposal_callback", "meta-vote-contract/src/view.rs: get_all_locking_positions", "meta-vote-contract/src/view.rs: get_total_voting_power"]}
{"id": "C66", "title": "No token backs two votes on a proposal, if voting is shorter than unbonding", "statement": "As long as less than D days passed since the votes on a proposal were cast, where D is a lower bound of all unbonding periods, and no voter's positions are overwritten by the operator, the tokens behind every recorded vote are still in positions of that voter, and together they are at most what all positions hold. With a longer voting period (which nothing forbids) this is false: the same tokens vote twice and the recorded power exceeds every total voting power there ever was.", "quantifier": "for all initial arguments of both contracts and all time-ordered interleavings", "why_tests_cant": "It needs every way tokens can leave a position (unlock, split, relock, clear, withdraw) over months of interleaved calls to two contracts.", "anchors": ["mpip-contract/src/lib.rs: vote_proposal", "mpip-contract/src/lib.rs: update_voting_period", "meta-vote-contract/src/lib.rs: unlock_position", "meta-vote-contract/src/withdraw.rs"]}
{"id": "C67", "title": "The views that list votes agree with each other", "statement": "The list of an account's votes is sorted by power, names no (address, object) pair twice, is the list shown in the account's info, sums to the used voting power, and (if no vote of zero power was ever cast) contains exactly the pairs for which the per-object view reports a positive number. The list of an address's votes names no object twice and shows for each exactly the tally, every object with a positive tally is in it, and the sorted list by contract holds the same entries. After a vote of zero power the per-object view of an account can report votes the list does not have.", "quantifier": "for all initial arguments, all operation sequences (for the account views: without a collision of voter-address keys), all accounts, addresses and objects", "why_tests_cant": "The views read different collections (nested maps, per-address maps, the used counter); their agreement is an invariant of every order of vote, change, unvote and bulk operations.", "anchors": ["meta-vote-contract/src/view.rs: get_votes_by_voter", "meta-vote-contract/src/view.rs: get_votes_by_app", "meta-vote-contract/src/view.rs: get_votes_by_contract", "meta-vote-contract/src/view.rs: get_votes_for_object", "meta-vote-contract/src/voter.rs: to_json"]}
{"id": "C68", "title": "Storage records of different collections never overlap", "statement": "In the flat key-value storage of each contract, two records have the same key only if they are the same record, unless two different ids have the same keccak hash. With the storage prefixes of the voting contract every sequence of operations on its unordered maps, vectors and lookup maps leaves each collection with exactly its own last written values, in one store, and never touches the root record. The one exception: the map of an account's votes on an address is keyed by the text voter-address, so different (account, address) pairs with the same text share their records, whatever the hash.", "quantifier": "for all hash functions with 32-byte values, all records whose indexes and strings fit their Rust types, all sequences of fewer than 2^64 operations that create an unordered map again only while it is empty and stay within vector bounds", "why_tests_cant": "Overlaps depend on bytes of prefixes, ids and keys; a test only sees the few ids it uses.", "anchors": ["meta-vote-contract/src/constants.rs: StorageKey", "mpip-contract/src/constants.rs: StorageKey", "kv-store-contract/src/lib.rs: StorageKey", "test-meta-token/src/lib.rs: StorageKey", "meta-vote-contract/src/voter.rs: get_vote_position_for_address", "meta-vote-contract/src/utils.rs: generate_hash_id"]}
{"id": "C69", "title": "NEAR attached to and sent by the contracts", "statement": "Voting contract: an accepted call attaches exactly what its kind requires (one yoctoNEAR, the registration cost, or nothing; claims for a delegated account take any amount), and sends one yoctoNEAR exactly when it pays out tokens; so over any history the NEAR sent plus all registration fees is at most the NEAR attached plus one yoctoNEAR per stNEAR claim. Proposal contract: only creating a proposal attaches NEAR, at least the storage price in force; only a payment signed by the administrator takes NEAR out, besides one yoctoNEAR per query; and if the price was at least K throughout, at least K per existing proposal has been attached. Not true: that stNEAR claims and queries are covered by their callers, that excess deposits of delegated claims are refused, that the deposit comes back when no proposal is created.", "quantifier": "for all calls, contexts and reachable states, all histories with answers in any order, all K", "why_tests_cant": "Sums over all histories and over all interleavings of callbacks.", "anchors": ["meta-vote-contract/src/withdraw.rs: transfer_mpdao_to_voter, transfer_stnear_to_voter", "meta-vote-contract/src/lib.rs: update_airdrop_user_data", "meta-vote-contract/src/evm_delegate.rs: delegated_claim_stnear", "mpip-contract/src/lib.rs: create_proposal, pay_to_account, start_voting_period, vote_proposal"]}
{"id": "C70", "title": "Token calls succeed exactly when they should", "statement": "Every call of the token contract succeeds if and only if its conditions hold (deposit, caller's role, registration of the parties, balance, supply below 2^128); after a success the owner, the minters and the registered accounts are exactly as the call says; the minters are exactly the accounts an owner of the time added and no owner removed since; the resolution of a transfer-call never panics and answers the amount used; and a receiver is called back exactly for a transfer-call, with the caller named as sender.", "quantifier": "for all initial supplies, all histories of calls, all callers and arguments", "why_tests_cant": "An equivalence over all reachable states: tests show neither that no other call is accepted nor that none is refused.", "anchors": ["test-meta-token/src/lib.rs: set_owner, add_minter, remove_minter, mint, burn, ft_transfer, ft_transfer_call, ft_resolve_transfer, storage_deposit, storage_withdraw, storage_unregister"]}
{"id": "C71", "title": "Calls of the voting contract succeed exactly when they should", "statement": "For each of the 36 state-changing calls there is a condition over the views (attached deposit, caller's role, the positions, balance, free power, votes, claims and settings shown by the contract) such that a call that succeeds meets it, and a call that meets it succeeds unless a sum or product does not fit in 128 bits. The calls that add no tokens anywhere (votes, rebalancing, unvoting, unlocking, stNEAR claims, delegation, setters) succeed if and only if the condition holds: no arithmetic can get in the way, because all votes for an object and a voter's free power fit together.", "quantifier": "for all initial arguments, all histories without colliding storage prefixes and without zero-power votes, all contexts and arguments (lists of positions naming each once)", "why_tests_cant": "An equivalence over all reachable states: tests show neither that no other call is accepted nor that none is refused.", "anchors": ["meta-vote-contract/src/lib.rs: claim_and_lock, claim_stnear, unlock_position, unlock_partial_position, locking_position_extend_days, relock_position, relock_partial_position, relock_from_balance, clear_locking_position, vote, rebalance, unvote, migration_create_lps, operator_mirror_lps, setters", "meta-vote-contract/src/evm_delegate.rs", "meta-vote-contract/src/withdraw.rs", "meta-vote-contract/src/deposit.rs: ft_on_transfer"]}
{"id": "C72", "title": "Every call changes everything shown exactly as specified", "statement": "There is a complete specification of the voting contract as a ledger (accounts with their positions, balances, voting power and votes; tallies; claimable tokens; airdrop data; delegations; settings): when each of the 36 calls is accepted, what the whole ledger is afterwards and which tokens are sent. The contract follows it: an accepted call was enabled by the ledger its views showed, the views afterwards show exactly the next ledger (nothing else changes, for nobody), and the tokens sent are those specified; an enabled call is accepted unless a sum or product does not fit in 128 bits. The constructor accepts just the arguments that fit their types with the shortest period below the longest, and starts with the empty ledger. No hidden state: two contracts that show the same ledger, whatever their histories, accept the same calls, send the same tokens and show the same ledger again (mirroring apart, where the order of the votes decides which are dropped).", "quantifier": "for all initial arguments, all histories without colliding storage prefixes and without zero-power votes, all contexts, all calls and arguments (lists of positions naming each once)", "why_tests_cant": "It is a refinement between the code on nested storage maps and a specification on plain functions, for every state reachable; a test compares single fields after single histories and says nothing about everything that must not change.", "anchors": ["meta-vote-contract/src/lib.rs: new and all state-changing methods", "meta-vote-contract/src/internal.rs", "meta-vote-contract/src/evm_delegate.rs", "meta-vote-contract/src/withdraw.rs", "meta-vote-contract/src/deposit.rs: ft_on_transfer", "meta-vote-contract/src/locking_position.rs", "meta-vote-contract/src/voter.rs"]}
{"id": "C73", "title": "Every call and answer changes the proposal contract exactly as specified", "statement": "There is a complete specification of the proposal contract as a board (settings, proposals, ids by proposer, tallies, ballots, questions waiting for an answer): when each of the 17 calls is accepted, which question it asks or payment it makes, which answers are accepted and what the whole board is afterwards. The contract follows it in every step with no proviso: a call succeeds if and only if the board allows it, an answer is counted if and only if it says a number the board accepts (sums and products included), and everything else on the board stays as it is. The specification leaves no choice, so there is no hidden state: two contracts showing the same board show the same board after any further history. The constructor accepts just floors up to 10000 basis points and starts with the empty board.", "quantifier": "for all initial arguments, all histories of calls and answers (any order, any delay) with fewer than 2^32 proposals, all contexts and arguments", "why_tests_cant": "An equivalence and a refinement over all reachable states and all interleavings of calls with delayed answers; tests compare single fields after single histories.", "anchors": ["mpip-contract/src/lib.rs: new and all state-changing methods and callbacks", "mpip-contract/src/internal.rs", "mpip-contract/src/vote_counting.rs", "mpip-contract/src/mpip.rs"]}
{"id": "C74", "title": "Every view answers what the ledger holds", "statement": "In every reachable state, every view of the voting contract answers exactly what the ledger of C72 holds, at every time asked: the account views (positions with their three status flags, balance, locked and unlocking amounts, free and used power, votes per object, the list of votes, the whole voter record, including that of an unknown account), every page of the five listings (voters, mpDAO claims, stNEAR claims, airdrop data, delegates), the tallies of an address in both forms, airdrop registration, delegations, totals and settings. A view panics only where a sum of amounts exceeds 128 bits or a page of delegates starts past the end.", "quantifier": "all constructor arguments, all call sequences (no two vote keys colliding in storage, no votes of power 0), all times, accounts, addresses, objects and page bounds", "why_tests_cant": "There are about thirty views over unbounded maps and lists; a test compares a few of them on a few states, while a wrong flag, a skipped page entry or a view reading the wrong field shows only for particular histories and times.", "anchors": ["meta-vote-contract/src/view.rs:34-301", "meta-vote-contract/src/voter.rs:37-154", "meta-vote-contract/src/locking_position.rs:30-61", "meta-vote-contract/src/lib.rs:153-201", "meta-vote-contract/src/evm_delegate.rs:170-212"]}
{"id": "C75", "title": "Every view of the proposal contract answers what the board holds", "statement": "In every reachable state every view of the proposal contract answers exactly what the board of C73 holds: each proposal and its state at each time (draft, active, voting, accepted, rejected, cancelled, executed, by its flags, its window, the turnout against the quorum and the votes for against those against), whether it is still editable, the pages of proposals, the proposals of an author, the last id, the tallies with the complete list of ballots, whether the vote succeeded and, for staff only, whether the quorum is reached, who voted and how, the ballots of a voter, the number of voters with a ballot, and the settings. A view panics only for an id that does not exist, a turnout over 128 bits, a missing quorum or a caller who is not staff.", "quantifier": "all histories of calls and answers, all times, ids, accounts and page bounds", "why_tests_cant": "There are about twenty views over unbounded lists of proposals and ballots; the state shown depends on time, flags, quorum and tallies together, and errors at one boundary (the first or last millisecond, a tie, a turnout equal to the quorum) are invisible elsewhere.", "anchors": ["mpip-contract/src/lib.rs:278-368", "mpip-contract/src/lib.rs:469-500", "mpip-contract/src/internal.rs:46-222", "mpip-contract/src/vote_counting.rs:27-54"]}
{"id": "C76", "title": "Just which calls of the voting contract are accepted, and whole histories", "statement": "A call of the voting contract is accepted if and only if it is enabled by the ledger its views show and the few numbers listed for that call (for a lock: the amount times 10^18, the new total of voting power, and the joined position's amount and power; for a collection: the new balance; and so on) are below 2^128. No other sum, product or conversion the call computes can overflow. Hence every history is determined by the constructor's arguments and the calls: the ledger shown at the end and the whole list of token transfers ordered on the way, in order, are the ones the specification leads to, and (mirroring apart) it leads to one ledger and one list only. Two contracts showing the same ledger accept exactly the same calls.", "quantifier": "for all initial arguments, all histories without colliding storage prefixes and without zero-power votes, all contexts, all calls and arguments (lists of positions naming each once)", "why_tests_cant": "It says which of the dozens of checked additions, products and narrowing conversions can never fail in any reachable state, and gives the exact threshold for the others; a test exercises one number on one side of one threshold.", "anchors": ["meta-vote-contract/src/internal.rs", "meta-vote-contract/src/lib.rs: all state-changing methods", "meta-vote-contract/src/utils.rs: proportional, calculate_voting_power", "meta-vote-contract/src/locking_position.rs", "Cargo.toml:20 overflow-checks"]}
{"id": "C77", "title": "No call fails by overflow with a realistic token supply", "statement": "As long as 60·10^18 times the mpDAO supply is below 2^128 (with six decimals, fewer than 5.6·10^12 mpDAO; 5·10^8 exist) and the all-time counters of distributed tokens have room for one more distribution of everything, every call that reaches the voting contract (from users, from the token contracts, or from the contract itself as a callback) is accepted exactly when the rules of the ledger allow it: none is refused because a sum, a product or a conversion does not fit, whatever positions were split, merged, relocked, unlocked, voted or collected before. In particular the total voting power is at most 60·10^18 per unit of mpDAO owed. (Positions mirrored by the operator are not backed by tokens and are excluded.)", "quantifier": "for all initial arguments, all histories of fewer than 2^64 calls (events) without colliding storage prefixes and without zero-power votes, in which the owner keeps the token addresses and the operator mirrors nothing; all contexts, all calls and arguments (lists of positions naming each once)", "why_tests_cant": "The voting power of a position drifts from the formula by one unit per split and merge; that the drift never lets the power outgrow the tokens, and that the tokens of every position, balance, claim and of every transfer in flight together stay below the supply, are statements about all histories and interleavings.", "anchors": ["meta-vote-contract/src/utils.rs: proportional, calculate_voting_power", "meta-vote-contract/src/internal.rs", "meta-vote-contract/src/lib.rs: all state-changing methods", "meta-vote-contract/src/deposit.rs: ft_on_transfer", "meta-vote-contract/src/withdraw.rs", "Cargo.toml:20 overflow-checks"]}
{"id": "C78", "title": "Calls taking a list do what single calls in sequence do", "statement": "Collecting or withdrawing with a list of position indexes, setting airdrop data for a list of users, migrating a list of positions, and distributing rewards to a list of accounts each end in exactly the state reached by the calls naming one item each, one after the other (positions from the highest index to the lowest, whatever the order and however often the caller named them); the batch is accepted if and only if all the single calls are. Consequently every history, also one whose lists name a position several times, ends in the same state and orders the same transfers as a history in which no list does, and is refined by the specification of C76.", "quantifier": "for all states, callers, contexts, lists (also with repetitions) and amounts; the last part for all initial arguments and all histories without colliding storage prefixes and zero-power votes", "why_tests_cant": "Removing a position moves the last one into its place, so the meaning of the later indexes of a list changes while it is processed; that sorting makes every list, with every pattern of repetition and of ended and running positions, equal to single calls is a statement about all lists.", "anchors": ["meta-vote-contract/src/voter.rs:157-169 clear_fully_unlocked_positions", "meta-vote-contract/src/withdraw.rs:44-52 withdraw", "meta-vote-contract/src/lib.rs: clear_locking_position, operator_multi_set_airdrop_data, migration_create_lps", "meta-vote-contract/src/deposit.rs:70-107 distribute_for_claims"]}
{"id": "C79", "title": "Accounts do not influence each other, and calls of different accounts commute", "statement": "Calls such as locking, unlocking, voting, claiming, withdrawing, their callbacks and deposits each act on one account. In any sequence of such calls, what is shown about an account at the end, and the answer to each of its own calls (refused, or accepted with which token transfers), are the same as if the calls of all other accounts had not been made. Any two interleavings of the same per-account sequences lead to contracts that show the same in every view, including totals and tallies. This needs storage names that do not collide and a token supply of realistic size; with colliding names it is false.", "quantifier": "every reachable state, every sequence of calls each acting on one account, every interleaving", "why_tests_cant": "The number of interleavings of the calls of many accounts grows without bound, and so does the number of accounts and states; tests try a few orders of a few calls.", "anchors": ["meta-vote-contract/src/lib.rs: all methods acting on one account", "meta-vote-contract/src/voter.rs", "meta-vote-contract/src/internal.rs", "meta-vote-contract/src/withdraw.rs", "meta-vote-contract/src/deposit.rs"]}
{"id": "C81", "title": "The token's events tell all balances", "statement": "Adding up the mint, burn and transfer events of the token, and its lines about closed accounts, gives the balance of every account and the total supply at every moment. The events alone suffice as long as nobody closes an account that still holds tokens; closing one with force burns its tokens without an event, and the events then tell a supply that is too large.", "quantifier": "every initial supply, every history of calls, every account", "why_tests_cant": "It relates the whole history of events to the whole state after histories of any length, with refunds, refunds to accounts closed meanwhile and transfers in any order; tests look at single calls.", "anchors": ["test-meta-token/src/lib.rs: new 80-98, ft_mint 150-162, ft_burn 165-176, ft_resolve_transfer 208-222, storage_unregister 241-250"]}
{"id": "C82", "title": "The lines about money match the tokens", "statement": "With meta-vote and both tokens together, in every order of receipts: the mpDAO that meta-vote's lines say were sent to an account, plus those whose report is still to come or failed, are exactly the mpDAO that the token's events say were moved from meta-vote to this account on its order. The same holds for stNEAR over all accounts. The deposits told by the lines are covered by what the contract holds and what its lines say was sent. The lines of the two tokens tell all their balances. If the owner points the stNEAR address to the mpDAO token, mpDAO leaves without a line that says so.", "quantifier": "every initial world, every sequence of calls and receipts in any order and with any failing receipts, every account", "why_tests_cant": "The lines of three contracts are written in receipts whose order and failure are not under the test's control; the number of interleavings is unbounded.", "anchors": ["meta-vote-contract/src/withdraw.rs: 66-142", "meta-vote-contract/src/deposit.rs: 13-64", "test-meta-token/src/lib.rs: 179-222"]}
{"id": "C80", "title": "The log tells the votes", "statement": "Someone who only reads the lines written to the log, adding what was \"gave\", setting what was \"increased to\" or \"decreased to\" and clearing what was \"unvoted\", knows every account's votes for every object at every moment. Different lines have different texts when account and address names hold no spaces; an address with spaces makes two different votes look alike. An account is said to be no longer part of Meta Vote exactly when it leaves the list of voters. A deposit line names the account whose positions grew by just the amount, which is not always the sender. A line about unlocking, splitting, extending or relocking names a position the account had, and that is what happened to it. Mirroring writes one line with the power before, after and in use, and one line per dropped vote, so there is no bound on the number of lines it writes; every other call writes at most one.", "quantifier": "every history of calls, every account, address and object; every pair of lines; every number of objects", "why_tests_cant": "Agreement of the log with the state is a statement about whole histories of any length, and distinctness of texts about all pairs of strings; tests compare a handful of lines.", "anchors": ["meta-vote-contract/src/lib.rs: log! at 244, 289, 327, 395, 474, 500, 558, 638, 657, 709, 854", "meta-vote-contract/src/withdraw.rs: log! at 36, 84, 91, 131, 134", "meta-vote-contract/src/deposit.rs: log! at 58"]}
{"id": "C83", "title": "All votes are covered by voting power and all power by tokens", "statement": "After any history of calls, for every list of distinct voted objects, the votes counted on them together with the voting power reported as unused by all accounts never exceed the contract's total voting power; this holds even when storage prefixes collide or zero votes are cast. When they do not, the two sides are equal as soon as the list leaves out no object with votes. The total voting power itself is at most 60 times the mpDAO in locked positions, and, as long as nobody extends, mirrors or moves the bounds, at most (maximum days + 1)/60 times it. In the world with the token contract the same bounds hold against the mpDAO that the contract holds in the token's ledger at every moment, whatever is in flight. A call to extend defeats the bound by the configured maximum.", "quantifier": "all initial arguments, all finite histories of calls, all finite lists of (contract, object) pairs without duplicates; for the token part all interleavings of the tokens' and the contract's receipts", "why_tests_cant": "It sums over all accounts and all objects after arbitrary histories; a test sees a few accounts, and the colliding names and the in-flight moments that could break it are never generated by tests.", "anchors": ["meta-vote-contract/src/internal.rs: increase/decrease of total votes", "meta-vote-contract/src/lib.rs: unlock, extend, vote, rebalance, unvote, operator_mirror_lps", "meta-vote-contract/src/utils.rs: calculate_voting_power", "meta-vote-contract/src/view.rs: get_total_votes, get_available_voting_power, get_total_voting_power"]}
{"id": "C84", "title": "Every token the contract holds is accounted for", "statement": "At every moment, and for mpDAO and stNEAR alike, the tokens the voting contract holds in the token's ledger are exactly the sum of what it owes, what is in flight in either direction, what it held at the start, what was sent to it by plain transfers, and what callbacks left behind whose own receipts failed. Without the last two it holds exactly what it owes once nothing is in flight. What was given or left behind never goes anywhere afterwards. A payment ends either in the receiver's wallet or back on the books of the account it came from, and a deposit either on the books or back with its sender, whether the receipts fail or not. Only if the receipt of the callback itself fails are the tokens of a failed payment lost to the account.", "quantifier": "all executions of the voting contract and two token contracts: all interleavings of calls and receipts, all receipts that may fail; all accounts, amounts and messages", "why_tests_cant": "An equation over the sum of all accounts and all receipts in flight, in every interleaving and with failures at every point; tests run a handful of schedules and compare a few balances.", "anchors": ["meta-vote-contract/src/withdraw.rs: transfer and callbacks", "meta-vote-contract/src/deposit.rs: ft_on_transfer", "test-meta-token/src/lib.rs: ft_transfer, ft_transfer_call, ft_resolve_transfer"]}
{"id": "C85", "title": "Only an account's own transfers take tokens from it", "statement": "Let an account own its token balance, what the voting contract's books credit to it (raw balance, positions, claimable rewards) and the withdrawals and claims on their way to it. As long as the account does not call the token contract itself and does not hand back a transfer_call it received, this sum never shrinks: no call to the voting contract by anyone (owner, operator and the account itself included), no order of receipts and no failing transfer takes anything from it, for mpDAO and for stNEAR. Exceptions: positions of accounts ending in .evmp.near, which the operator replaces, and a failed transfer whose callback fails as well.", "quantifier": "for all initial states of the three contracts, all histories of calls and receipts without imports and without re-pointing the stNEAR address (for mpDAO also with imports while what is owed fits a u128), all accounts but the contract itself and accounts of the other chain, both tokens", "why_tests_cant": "A test follows one account through one scenario; this is about every account under every interleaving of calls by others, receipts and failures across three contracts.", "anchors": ["meta-vote-contract/src/withdraw.rs:11-143", "meta-vote-contract/src/deposit.rs:13-108", "meta-vote-contract/src/lib.rs:150-640 (locking calls)", "meta-vote-contract/src/internal.rs", "meta-vote-contract/src/evm_delegate.rs:78-140", "test-meta-token/src/lib.rs:151-200 and the standard token calls"]}
{"id": "C86", "title": "Storage fees of the token are neither lost nor paid twice", "statement": "At every moment the NEAR attached to accepted calls of the token contract, plus one fee for the account registered at deployment, equals what it has sent back, what was attached to calls that keep their deposit, and exactly one fee for every account registered now. Registering sends everything but the fee back to the caller, everything if the account was registered already; closing an account sends the fee and the attached yoctoNEAR to its holder exactly once, and without force only with an empty balance; neither touches other accounts.", "quantifier": "all initial supplies, fees and owners, all sequences of calls by any accounts with any deposits", "why_tests_cant": "An equation over all accounts and all sequences of calls; tests check single deposits.", "anchors": ["test-meta-token/src/lib.rs:224-258", "near-contract-standards 5.0.0 fungible_token/storage_impl.rs (not in the repository)"]}
{"id": "C87", "title": "Everything deposited can be brought back to the wallet", "statement": "In the system of the voting contract and the two tokens, an account that never unlocked a position twice can at any time withdraw its votes and unlock its positions; 3600 days later, whatever other accounts did and in whatever order receipts ran, one withdraw_all and the receipt of its transfer increase the account's balance in the mpDAO token by its whole balance and all its positions in the voting contract, and the account is gone from the contract. Claimable stNEAR can be claimed into the wallet at any time, any part of it.", "quantifier": "all event sequences of the composed system (calls by any account, receipts in any order, failing or not) before and in between, all accounts, times and amounts", "why_tests_cant": "It claims that a way out exists from every reachable state of three contracts with receipts in flight, and that nobody can block it in the 3600 days in between; tests follow single schedules from a few states.", "anchors": ["meta-vote-contract/src/withdraw.rs:11-76", "meta-vote-contract/src/withdraw.rs:79-123", "meta-vote-contract/src/lib.rs:219-254", "meta-vote-contract/src/lib.rs:717-752", "test-meta-token/src/lib.rs"]}
{"id": "C88", "title": "Every number fits its type", "statement": "As long as the parameters of every call are in the range of their Rust types, every number the voting contract stores is in the range of the type that stores it: the u8, u16, u64 and u128 settings, balances, amounts, periods and voting powers of positions, starts of unbondings, available and used voting power, votes, tallies, claims and totals. The end of every unbonding, the sum of its start and its period in milliseconds, is a u64, and every amount sent by a call is a u128.", "quantifier": "all initial arguments, all call sequences with parameters in range; no assumption on hashes, vote sizes, times or who calls", "why_tests_cant": "Overflow needs extreme values reached through long combinations of calls; tests use small amounts.", "anchors": ["meta-vote-contract/src/lib.rs:28-66", "meta-vote-contract/src/voter.rs:16-21", "meta-vote-contract/src/locking_position.rs:6-48", "meta-vote-contract/src/lib.rs:382-388", "meta-vote-contract/src/internal.rs:49-167", "meta-vote-contract/src/utils.rs:10-46"]}
{"id": "C89", "title": "Every number of the proposal contract fits its type", "statement": "As long as the arguments of the initialisation and the integer parameters of every call are in the range of their Rust types, every number the proposal contract stores is in the range of the type that stores it: the voting period, thresholds and fees, the quorum floor, the ids of proposals in every place they are kept, starts and ends of voting periods, quorums, tallies and the voting power of every vote. Nothing is assumed about the numbers in the answers of the queried contract or the ids callers name, nor about how many proposals there are. What a call sends, the amount paid and the id in a question, is in range too.", "quantifier": "all initial arguments in range, all sequences of calls and answers, any answers in any order", "why_tests_cant": "Overflow needs extreme answers of another contract and extreme settings combined; tests use small numbers and one order of answers.", "anchors": ["mpip-contract/src/lib.rs:27-101", "mpip-contract/src/lib.rs:134-201", "mpip-contract/src/mpip.rs:40-57", "mpip-contract/src/vote.rs:26-34", "mpip-contract/src/vote_counting.rs:18-24", "mpip-contract/src/internal.rs:157-201"]}
{"id": "C90", "title": "Messages are read as the JSON they are", "statement": "The reader of transfer messages accepts a text as [voter, days] exactly when it is JSON for an array of a string and an unsigned 16-bit integer, and as the list of a distribution exactly when it is JSON for an array of arrays of a string and an unsigned 64-bit integer, by the grammar of RFC 8259: white space, escapes, surrogate pairs and UTF-8, no leading zeros, signs, fractions or exponents, no trailing commas, no further elements and nothing after the end. It reads the value the text denotes. Every pair and every list written by the serializer, whatever bytes the strings hold, is read back as it was.", "quantifier": "all texts (byte strings) and all values", "why_tests_cant": "The accepted language is infinite; the tests send a handful of messages made by the serializer.", "anchors": ["meta-vote-contract/src/deposit.rs:23-47", "meta-vote-contract/src/tests/mod.rs:1131-1139"]}
{"id": "C91", "title": "A transfer does what its message says", "statement": "The text sent with a transfer of mpDAO or stNEAR means at most one thing: a distribution to listed accounts, a deposit locked for a named account, or a deposit locked for the sender. The transfer is kept exactly when the message has one of these meanings and the ledger allows it: units above zero that add up to the amount sent, by the mpDAO or stNEAR token; at least the minimum deposit of mpDAO, a period in the range, a free place for the position, the owner as sender when locking for another, results below 2^128, and for that form a message whose eleventh byte ends a character. It then changes the ledger just as the message says. Messages written with the JSON serializer say what was meant, and are never cut when the name is in ASCII.", "quantifier": "all initial arguments, all call histories, all senders, amounts and message texts", "why_tests_cant": "Tests send a few well-formed messages; the claim is about every text, including malformed, ambiguous-looking and non-ASCII ones.", "anchors": ["meta-vote-contract/src/deposit.rs:10-64", "meta-vote-contract/src/deposit.rs:69-110"]}
{"id": "C92", "title": "Votes on proposals cost tokens", "statement": "In the whole system (both tokens, the voting contract, the proposal contract and everything in flight between them): while fewer than D days have passed since votes on a proposal were cast, where D is a lower bound of all unbonding periods, the votes of any accounts on it weigh at most 60 times (and without extensions at most (maximum days + 1)/60 times) the mpDAO still in positions of those accounts; all tallies together weigh at most that multiple of the mpDAO which the voting contract holds in the token's ledger; and a proposal is reported as accepted only if tokens for the configured share of all voting power are held. The last two need that nobody votes again while an own vote on the proposal is still being counted: otherwise an account with a twentieth of the power passes a proposal alone although a tenth is required, and tallies exceed any multiple of the tokens held.", "quantifier": "for all time-ordered histories of the four contracts (fewer than 2^64 events), all interleavings and failures of receipts, view calls and callbacks, all proposals and all lists of accounts, in which nothing is imported or mirrored and the contracts stay linked", "why_tests_cant": "The bound joins four contracts and every order of their receipts; the attack needs a second vote between a view call and its callback, which single-contract tests never produce.", "anchors": ["mpip-contract/src/lib.rs:380-452", "mpip-contract/src/internal.rs", "meta-vote-contract/src/deposit.rs", "meta-vote-contract/src/view.rs:67-69", "test-meta-token/src/lib.rs"]}
{"id": "C93", "title": "The contracts understand each other", "statement": "Everything the four contracts send each other as JSON text - arguments of ft_on_transfer, ft_resolve_transfer, ft_transfer, the view calls and all callbacks, and the results that callbacks read - is read back exactly as it was meant, whatever bytes titles, memos, messages and names hold: no receipt fails or changes its meaning in transit. Precisely: every value of a declared type is read back from the text written for it; exactly the account ids (2 to 64 small letters and digits with single separators between) are accepted; and every history of the system that passes texts is matched step by step by a history of the system that passes values, with equal contract states and with receipts in flight that are the texts of the values in flight there. So claims about the latter, such as C92, hold with texts.", "quantifier": "all values of all record, list, option, integer and string types; all histories of the four contracts, all orders and failures of receipts, all answers of other contracts, all calls from outside whose account ids and integers have the declared types", "why_tests_cant": "Tests send a few plain strings; the claim covers every byte sequence in every text field and every order of receipts.", "anchors": ["mpip-contract/src/lib.rs:177-250", "mpip-contract/src/lib.rs:372-439", "mpip-contract/src/interface.rs:5-11", "mpip-contract/src/internal.rs:157-197", "mpip-contract/src/types.rs:19-29", "meta-vote-contract/src/types.rs:25-34", "meta-vote-contract/src/withdraw.rs:66-143", "meta-vote-contract/src/deposit.rs:13-18", "test-meta-token/src/lib.rs:181-222"]}
{"id": "C94", "title": "Everything arrives as text: every call is refused or is a typed call", "statement": "For every method name and every argument text, each of the four contracts performs a given call exactly if the name is that of the method, the integers of the call are in the range of the declared types, its account parameters are account ids, and the text says of the declared parameters what the plain text of this call says (as the JSON reader sees it); all other texts are refused. So whatever texts callers send to the meta-vote contract, the two tokens and the proposal contract, the system of contracts behaves as the system of values for the calls these texts stand for; the voting contract is always in a state reached by a history of typed calls made by the texts or by the contracts themselves, the proposal contract likewise; no stored number is too big for its type and voters on a proposal hold tokens (C92), with hypotheses only on what the chain guarantees of a call.", "quantifier": "all method names and argument texts (arbitrary byte strings), all histories of calls from outside and receipts in any order, with failures; callers are accounts outside the contracts, deposits are u128 and times u64", "why_tests_cant": "Arguments are arbitrary byte strings; tests use a handful of well-formed ones and call the methods directly with typed values.", "anchors": ["meta-vote-contract/src/lib.rs:120-870", "meta-vote-contract/src/deposit.rs:13-18", "meta-vote-contract/src/withdraw.rs:44-60", "meta-vote-contract/src/evm_delegate.rs:13-150", "mpip-contract/src/lib.rs:106-500", "test-meta-token/src/lib.rs:110-250", "kv-store-contract/src/lib.rs:40-95"]}
{"id": "C95", "title": "The result of a vote does not depend on the order of the votes", "statement": "On the proposal contract, voters do not influence each other's votes: in any sequence of votes, removals of votes and (delayed, reordered or failed) answers to the questions about votes, on any proposals, a voter's recorded votes, the questions still waiting for that voter and whether each of the voter's calls was accepted are the same as if all other voters had done nothing. Any two interleavings of the same per-voter sequences lead to the same board, tallies included, and every proposal is reported in the same state at any time: accepted in both or in neither. This needs that the sum of all answered voting power fits a u128; otherwise it is false.", "quantifier": "every reachable state with fewer than 2^32 proposals, every sequence of voting events of any voters, every interleaving", "why_tests_cant": "The number of interleavings of votes and delayed answers grows without bound; tests try a few orders of a few votes.", "anchors": ["mpip-contract/src/lib.rs: vote_proposal, remove_vote_proposal, vote_proposal_callback", "mpip-contract/src/vote_counting.rs", "mpip-contract/src/voter.rs", "mpip-contract/src/internal.rs"]}
{"id": "C96", "title": "Views: every question is refused or answered with the JSON text of what the contract holds", "statement": "For each of the four contracts: a view called by method name with a JSON text of arguments answers only the listed questions with arguments of the declared types, under the listed names (deprecated aliases included); every text that says the same as the plain text of a question gets the same answer; the answer is exactly the JSON text written down in the specification (field names, field order, amounts as strings, counts as numbers, missing values as null). In every reachable state the text can be read back as the declared result type, and two contracts (or one contract at two times) give the same text only if they hold the same value of what is asked.", "quantifier": "for all states, times, callers, method names and argument texts (answers, questions); for all histories of typed calls of two contracts (readable, tells)", "why_tests_cant": "tests read the views through the same serde derives that wrote them, so a renamed field, a number written where clients expect a string, or two states that look the same to every client are not noticed; the texts, names and states are unbounded", "anchors": ["meta-vote-contract/src/view.rs:34-303", "meta-vote-contract/src/lib.rs:153-189", "meta-vote-contract/src/lib.rs:768", "meta-vote-contract/src/evm_delegate.rs:25", "meta-vote-contract/src/evm_delegate.rs:170-210", "meta-vote-contract/src/types.rs:25-50", "meta-vote-contract/src/voter.rs:5-13", "mpip-contract/src/lib.rs:278-366", "mpip-contract/src/lib.rs:469-487", "mpip-contract/src/mpip.rs:9-38", "mpip-contract/src/vote.rs:7-60", "mpip-contract/src/vote_counting.rs:9-16", "test-meta-token/src/lib.rs:107-256", "kv-store-contract/src/lib.rs:97-128"]}
{"id": "C97", "title": "The key-value store from the text of a call to the bytes in storage", "statement": "Start from an account without storage and send it any calls, each a method name and a text. Then the contract, reading JSON, loading and saving its Borsh record under STATE and keeping its entries in near_sdk's UnorderedMap on raw storage keys, accepts exactly the calls that a plain book (owner, operator, list of entries) accepts and returns exactly the texts the book returns. The texts determine the book and its answers. The storage holds exactly the STATE record and three records per entry, under the stated keys; a removed entry leaves nothing behind.", "quantifier": "for all lists of calls (caller, deposit, method name, argument text), as long as stored strings are shorter than 2^32 bytes and there are fewer than 2^64 entries, which holds for fewer than 2^32 calls with texts shorter than 2^32 bytes", "why_tests_cant": "tests call Rust methods with typed values on a mock storage; they do not cover arbitrary argument texts, collisions of storage keys, Borsh round trips of arbitrary strings, or leftovers after removals, over unbounded histories", "anchors": ["kv-store-contract/src/lib.rs:12-128"]}
{"id": "C98", "title": "The token from the text of a call to the bytes in storage", "statement": "Start from an account without storage and send it any calls, each a method name and a text (with the result of a promise for a callback). Then the token contract, reading JSON, loading and saving its Borsh record under STATE and keeping balances in near_sdk's LookupMap and the metadata in a LazyOption on raw storage keys, accepts exactly the calls that the typed token accepts, returns exactly its texts and issues exactly its promises and transfers of NEAR. The texts determine the token. The storage holds exactly the STATE record, the metadata and one 16-byte balance per registered account; a closed account leaves nothing behind. The balances on disk always add up to the supply on disk. The storage fee that the contract measures on its own bytes when it is created is 0.00125 NEAR.", "quantifier": "for all lists of calls (caller, deposit, promise result, method name, argument text) with fewer than 2^32 minters at a time, which holds for fewer than 2^32 calls", "why_tests_cant": "tests call Rust methods with typed values on a mock storage; they do not cover arbitrary argument texts and promise results, Borsh round trips, collisions of storage keys, or leftovers after closed accounts, over unbounded histories", "anchors": ["test-meta-token/src/lib.rs:40-264"]}
{"id": "C99", "title": "The proposal contract from the text of a call to the bytes in storage", "statement": "Start from an account without storage and send it any calls, each a method name and a text (with the result of a promise for a callback). Then the proposal contract, reading JSON, loading and saving its Borsh record under STATE and keeping proposals, tallies, ballots, voters and proposers in near_sdk's UnorderedMaps on raw storage keys (the inner maps under hashed prefixes), accepts exactly the calls and callbacks that the typed contract accepts, returns exactly its texts and issues exactly its promises and payments. The texts determine the state. The storage holds the STATE record and, for every entry of every map, its three records with the stated bytes, and nothing else; before `new` it is empty. If the callbacks answer questions that were asked, the state is one that the typed calls and answers reach.", "quantifier": "for all lists of fewer than 2^32 calls (caller and signer, deposit, time, promise result, method name, argument text) whose callers are account ids, whose time is a u64 and whose texts are shorter than 2^32 bytes; for every 32-byte hash without collisions among the proposal numbers and voters hashed", "why_tests_cant": "tests call Rust methods with typed values on a mock storage; they do not cover arbitrary argument texts and promise results, Borsh round trips, collisions of the keys of nested maps under hashed prefixes, or maps removed and made again, over unbounded histories", "anchors": ["mpip-contract/src/lib.rs:28-506", "mpip-contract/src/internal.rs:1-222", "mpip-contract/src/mpip.rs:1-157", "mpip-contract/src/vote.rs:1-60", "mpip-contract/src/vote_counting.rs:1-52", "mpip-contract/src/voter.rs:1-34"]}
{"id": "C100", "title": "The voting contract on the bytes in storage", "statement": "Start from an account without storage, call `new`, and then call any of the contract's methods and callbacks in any order. Then the voting contract, loading and saving its Borsh record under STATE, keeping voters, tallies, claims, user data and delegates in near_sdk's UnorderedMaps, delegation signatures in LookupMaps, locking positions in a Vector per voter and votes in a map of maps per voter, all on raw storage keys (the nested ones under hashed prefixes), accepts exactly the calls that the typed contract accepts and sends exactly its transfers. After any history the storage holds the STATE record and, for every entry of every map, position and vote, its records with the stated bytes. If no two voter-address pairs join to the same text, a voter's votes are a map of maps under the hashes of voter-address, and hold the powers that get_votes_for_object shows. `new` is accepted once and no method is accepted before it; and two histories that leave the same bytes have the same future: every later list of calls is accepted, refused and answered with transfers alike.", "quantifier": "for all parameters of `new` and all lists of calls (caller, signer, deposit, time, method and typed arguments) whose numbers fit the types of the arguments, whose texts are shorter than 2^32 bytes and which add fewer than 2^32 entries; for every 32-byte hash without collisions among the callers, voters, voted addresses and voter-address texts hashed", "why_tests_cant": "tests call Rust methods on a mock storage and look at views; they do not cover Borsh round trips, collisions of the keys of nested maps under hashed prefixes, vectors and maps that are cleared, removed and made again, or stale records, over unbounded histories", "anchors": ["meta-vote-contract/src/lib.rs:28-904", "meta-vote-contract/src/internal.rs:1-168", "meta-vote-contract/src/voter.rs:14-171", "meta-vote-contract/src/locking_position.rs:1-156", "meta-vote-contract/src/deposit.rs:1-108", "meta-vote-contract/src/withdraw.rs:1-143", "meta-vote-contract/src/evm_delegate.rs:1-213"]}
{"id": "C101", "title": "The voting contract from the text of a call to the bytes in storage", "statement": "The account of the voting contract gets method names with JSON texts, from anybody, in any order, with any deposit, and for callbacks with the outcome of the promise they wait for. It accepts exactly the calls whose text means a call that the typed contract accepts, with exactly its transfers: first `new`, once, without a deposit, with account ids, numbers in the ranges of their types and the eleven parameters in any order or as an array; then the public methods; and the two callbacks only after a promise and only from the account itself. Everything else (the views and migrate aside, which are not in this model) is refused and changes nothing. The texts determine the state, the state determines the bytes of the STATE record, the maps, positions and tallies, and every state reached is one that typed calls reach from `new`, with the bytes they write.", "quantifier": "for all lists of calls (caller, signer, deposit, time, promise outcome, method name, argument text) by accounts, with u64 times, u128 deposits and, counting twice the bytes of the texts and three per call, less than 2^31 bytes in all; for every 32-byte hash without collisions among the names the texts make the contract hash", "why_tests_cant": "tests call the Rust methods with typed values on a mock: they do not cover the generated JSON entry points, malformed, reordered or oversized arguments, calls before `new` or a second `new`, callbacks called from outside, nor their effect on raw storage over unbounded histories", "anchors": ["meta-vote-contract/src/lib.rs:28-904", "meta-vote-contract/src/deposit.rs:10-108", "meta-vote-contract/src/withdraw.rs:40-143", "meta-vote-contract/src/evm_delegate.rs:10-213"]}
{"id": "C102", "title": "The views of the voting contract on the bytes in storage", "statement": "After any history of calls, every view of the voting contract, asked under any of its names with any JSON text that gives its parameters, reads from the raw storage exactly the answer that the contract's logical state calls for, as the JSON text of C96, and panics exactly where that answer does not exist: the settings and counts, the info of a voter and pages of voters, balances, positions, used and available power, votes by application, by voter and by object, claims and airdrop data one by one and in pages, delegations and their pages. A voter who never was a voter reads as empty. No other text is answered, and before `new` nothing is.", "quantifier": "for all lists of state-changing calls and callbacks after an accepted `new`, within C100's limits, and for all histories of texts within C101's, all times, all 36 questions with any parameters of their types, under every name and every text of their arguments; for every 32-byte hash without collisions among the names used and the voter asked about", "why_tests_cant": "tests ask a handful of views in a few states through typed Rust values: they do not compare the 36 views with the stored bytes after unbounded histories, for absent voters and addresses, at page borders, or through the JSON entry points", "anchors": ["meta-vote-contract/src/view.rs:32-302", "meta-vote-contract/src/lib.rs:153-201", "meta-vote-contract/src/lib.rs:768-774", "meta-vote-contract/src/evm_delegate.rs:25-28", "meta-vote-contract/src/evm_delegate.rs:165-212", "meta-vote-contract/src/voter.rs:40-77", "meta-vote-contract/src/voter.rs:127-154", "meta-vote-contract/src/internal.rs:26-36"]}
{"id": "C103", "title": "The upgrade of the voting contract on the bytes in storage, and what follows it", "statement": "If the storage of the voting contract holds the records of any history of calls, with the STATE record as the version before wrote it, then the present version refuses every call, every question and `new` until the contract account calls `migrate` without a deposit. `migrate` then rewrites the STATE record and no other; from then on every call does, and every view answers, what it would for the same accounts, positions, votes, claims, data and delegations with no lock-in filters set. If no call had set filters, the storage is byte for byte the one the present version would have written all along. Nobody else can upgrade, an empty storage is not upgraded, and no second `migrate` is accepted, whatever was called in between.", "quantifier": "for all lists of state-changing calls and callbacks before and after the upgrade, within C100's limits, for all histories of texts before it within C101's, all questions of C102 after it, all callers of the first and second `migrate`; for every 32-byte hash without collisions among the names used", "why_tests_cant": "tests run `migrate` on one prepared state, if at all: they do not relate the stored bytes of unbounded histories before it to unbounded histories of calls and questions after it, nor show that a later `migrate` never decodes", "anchors": ["meta-vote-contract/src/migrate.rs:4-37", "meta-vote-contract/src/migrate.rs:39-86", "meta-vote-contract/src/lib.rs:26-66"]}
