# Formal model of meta-vote-contracts: design

Source: `/repo` (Rust, NEAR smart contracts).  Four contracts: `meta-vote-contract`
(locking, voting power, votes, claims, EVM delegation), `mpip-contract` (proposals),
`kv-store-contract`, `test-meta-token` (the NEP-141 mpDAO token).

## Method

* Every exported Rust function becomes a total, computable Gallina function returning
  `res (state * effects)`.  A Rust panic is `Panic msg` and leaves the state unchanged
  (NEAR reverts the state of a panicking receipt).
* Integers are `N`.  Every Rust `+ - *` on `u128` that can overflow is a checked operation
  that panics (the release profile has `overflow-checks = true`).
* A call is a pair (context, operation).  The context holds predecessor, signer, attached
  deposit and block timestamp.  A history is a list of calls; `run` folds it from the
  initial state.  Properties are proved for all histories by invariants.
* Promises are separate events.  In single-contract theorems about meta-vote the callbacks may be
  called with any arguments by the contract account (over-approximation).  `World.v` composes
  meta-vote with both token ledgers and a bag of receipts in flight, `Mpip.v` the proposal contract
  with its callbacks in flight, `Gov.v` the proposal contract with meta-vote.  Receipts run in any
  order and may fail.
* Collections: `UMap.v` models the storage layout of near-sdk 4 `UnorderedMap` (index
  records + key vector + value vector, length kept in the handle).  `OMap.v` is the pure
  ordered map with swap-remove order.  C35 connects them.  `Flat.v` goes down to the bytes of one
  flat key-value store with the storage keys of all four contracts; C68 shows that the collections
  do not overlap there.  Contract-level maps (one fixed
  prefix, never re-created while non-empty) use `OMap`.  The two per-voter nested maps
  (`vote_positions` and the maps inside it), whose prefixes derive from user-controlled
  names and which are re-created on stale storage, use `UMap`, as does the KV store.
* The central invariant `Inv` (MVInv.v) is parametrised by a mode: weak (stale index records
  tolerated, for C01, C02, C13), strong (for C03, C21, C25, C29, C30), and by a per-account
  deficit (C04, C57).  One induction serves all.
* Specifications (`*Spec*.v`) are written against the public views (`get_*`) and the calls of a
  history, not against the internals.  Every theorem in a `Props_*.v` file has an `Example` beside it
  with a concrete history that meets its hypotheses.
* A property that the code does not have is stated in full and refuted by a concrete history
  (`_refuted`), next to the strongest positive version found.

## Trusted base

* Coq 8.16.1 kernel, including `vm_compute` (used in examples and refutations).
* `Print Assumptions` of every listed theorem is printed in the `Props_*.v` files at build time:
  all are "Closed under the global context".  Libraries: Coq standard library, stdpp,
  coq-record-update.  (Loading ssreflect through stdpp brings the seven `Under_rel` constants of
  `Coq.ssr.ssrunder` into the environment; no theorem depends on them.)
* The hand translation from Rust to Gallina.  Each definition cites file and lines.
* near-sdk 4 semantics written from knowledge of the library (its sources are not in the
  sandbox): `UnorderedMap`/`Vector`/`LookupMap`, Borsh, `#[private]`, `#[payable]`,
  `assert_one_yocto`, panics revert, receipts are atomic.
* near-contract-standards `FungibleToken` (used by test-meta-token), likewise.
* `env::keccak256` used for storage prefixes is treated as injective (identity on strings); only
  C68, C99, C100 and C101 treat it as an arbitrary function with 32-byte values (C99-C101: without collisions among the hashed names).
* The stNEAR token is not in `/repo`; the composed model assumes its ledger works like the
  modelled token.

### Modelled
* meta-vote-contract: all state-changing functions (lib.rs, deposit.rs, withdraw.rs,
  evm_delegate.rs, internal.rs, voter.rs, locking_position.rs) in `MetaVote.v`, the views in
  `MVView.v`, the log lines in `MVLog.v`, `migrate.rs` with the Borsh bytes of the STATE record in
  `Migrate.v`; all state-changing functions again in `MVBytes.v` from typed arguments to the bytes in storage (C100),
  and in `VoteText.v` from the text of a call, of `new` or of a callback (C101); the views again in `MVAsk.v` on those bytes (C102),
  and `migrate` in `MVUpgrade.v` (C103).
* mpip-contract: all state-changing functions, callbacks and views in `Mpip.v`; again in `BoardBytes.v` from the text of a call
  (or callback) to the bytes in storage (C99).
* kv-store-contract: the whole file in `KV.v`; again in `KVBytes.v` from the text of a call to the bytes in storage (C97).
* test-meta-token: mint, burn, minters, owner, storage registration, ft_transfer,
  ft_transfer_call with resolve in `Token.v`, events and log lines in `TokenLog.v`, NEAR
  refunds of the storage methods in `TokenNear.v`; again in `TokBytes.v` from the text of a call to the bytes in storage,
  with `ft_metadata` and `assert_minter` (C98).
* serde_json on the two message formats of ft_on_transfer in `Json.v` (from the published library).
* serde_json on records, lists, options, account ids and U128 in `Wire.v`, as derived for what the contracts
  send each other.
* Compositions: `World.v` (meta-vote + two tokens), `Gov.v` (proposals + meta-vote), `Sys.v` (all four, values
  are passed), `Post.v` (all four, JSON texts of arguments and results are passed; C93 relates it to `Sys.v`),
  `Entry.v` (also the calls from outside are texts: method name and JSON arguments; C94 relates it to `Sys.v`).
* The views of the four contracts as they are asked and answered in `Ask.v`: method name and JSON arguments in, JSON result out;
  with the deprecated aliases that only call another view.

### Not modelled
* Gas, storage staking and its NEAR price (other than the fee the token measures for an account, C98), runtime limits (such as the number of log lines), memos
  and JSON text of token events, the log line of mpip, promise gas attachments.  Attached
  deposits and NEAR sent with calls are modelled (C69); NEAR returned by failed receipts is not.
* JSON encoding of results of state-changing methods of meta-vote and mpip, other than those the contracts use (`Post.v`).  In the models of the single
  contracts arguments and results are values; `Entry.v` and `Ask.v` add the JSON.  The two JSON-encoded `msg` formats are decoded by an arbitrary function carried in the context, so
  theorems hold for every decoder; `Json.v` models serde_json on them (C90) and C91 uses it.
* The log lines of meta-vote on the bytes in storage (C100 has the state-changing methods, C102 the views, C103 `migrate`).
* Validity of account-id syntax outside `Wire.v`, `Post.v`, `Entry.v` and `Ask.v` (every string is allowed: over-approximation), UTF-8 checks.
* The token's initializer `new` with metadata given by the caller (`new_default_meta` is modelled).
* Code under `tests/`, `scripts/` and the integration-test crate.
* Adding days to a millisecond date is unchecked in the model (it cannot overflow u64: lemma
  `date_add_no_overflow` in MVTime.v, and C88).

## Wrong-program tests

`seeded/LOG.jsonl` has one line per edit of the model tried in a scratch copy: the definition, the
edit, the claim it breaks, the theorems that no longer proved (`theorems_failed` lists the property
theorems that depend on a broken lemma), and theorems tightened afterwards.

## Per property

### C01 Votes are always backed by locked tokens (proved)
MetaVote.v + UMap.v (records of both per-voter nested maps). `Inv` (MVInv.v): for every voter the nested records represent a list of addresses with lists of objects (weak form, stale index records allowed), and available + used <= locked power. Induction over the history (`run_inv`). Collision freedom of voter-address names is a hypothesis on the calls only.

Theorems: `C01_votes_backed`, `C01_collision_free_addresses`, `C01_collision_free_voters`, `C01_refuted`. Proved for every history without storage-prefix collisions (no two voter/address pairs with equal voter-address concatenation); refuted without that proviso.

### C02 Contract total voting power is the sum over voters (proved)
Same invariant, second component: `total_vp` is the sum over the voter map (MVTotals.v). The `saturating_sub` of the code is shown never to saturate.

Theorems: `C02_total_is_sum`, `C02_no_saturation`, `C02_refuted`. Same proviso as C01; refuted without it.

### C03 Tally of an object is the sum of the voters' votes (proved)
Strong mode of `Inv` (no stale index records, no zero entries): the tally of every (address, object) is the sum over voters of what the views report.

Theorems: `C03_tallies_match`, `C03_zero_vote_refuted`, `C03_collision_refuted`. Proved for histories without zero-power votes and without name collisions; refuted without either proviso.

### C04 Available power is exactly locked power minus used power (proved)
`Inv` with a deficit map: in histories where every unlock names a locked position the deficit is zero.

Theorems: `C04_power_accounted`, `C04_refuted`. Exact equation proved when every unlock names a locked position; refuted otherwise (double unlock).

### C05 mpDAO conservation of every call (proved)
Case analysis of every operation (`exec_cases`, MVMoney.v) on balances + positions + unclaimed, with the token flow read from the call and its effects.

Theorems: `C05_mpdao_conserved`, `C05_imports`. Every call in every reachable state; the exact effect of the two imports is proved too.

### C06 The contract is always solvent in mpDAO (proved)
World.v: token ledgers, meta-vote and a bag of receipts, any schedule, any receipt may fail. Invariant ledger(self) + mirrored imports >= owed + in flight (WorldProofs.v).

Theorems: `C06_solvent`, `C06_deficit_is_imported`, `C06_withdrawal_funded`, `C06_failed_withdrawal_restored`, `C06_rejected_deposit_refunded`, `C06_repointed_refuted`, `C06_imports_refuted`. Composed model of meta-vote, the mpDAO token and the stNEAR token with every receipt scheduled in any order and able to fail. Shown with the stated provisos (no imports, stNEAR address not pointed to the mpDAO token); without either proviso it is refuted by a witness.

### C07 A failed withdrawal gives everything back (proved)
Exact effect of `after_transfer_mpdao_callback` in both outcomes; authority of the callback; amount taken by the withdrawal that scheduled it.

Theorems: `C07_failed_transfer_restores`, `C07_success_changes_nothing`, `C07_private`, `C07_withdrawal_amount`. Every state and amount at callback time (unless the balance would overflow u128).

### C08 Tokens stay locked for the full unbonding period (proved)
Potential `liquid by T` per voter (MVTime.v), induction over histories with non-decreasing time; bounded by what was liquid before plus late credits.

Theorems: `C08_time_lock`. Every history with non-decreasing time, every voter and horizon. Refunded withdrawals are added back. All credits count: deposits, locked claims, imported positions.

### C09 Re-locking never shortens the remaining wait (proved)
Exact effect of relock_position and relock_partial_position on all positions of the voter (MVRelock.v), date comparison from it.

Theorems: `C09_relock`, `C09_relock_partial_amount`. Exact effect of both re-lock calls on every stored position, balance and locked amount.

### C10 Voting power formula (proved)
Arithmetic of `calculate_voting_power` against the rational formula, written with division in the specification only.

Theorems: `C10_formula`, `C10_monotone`, `C10_split`, `C10_part`. Formula, monotonicity, split loss of at most one unit and partial-unlock bound for all inputs.

### C11 Every position carries the voting power of its amount and period (proved)
Invariant over positions (MVPos.v, `allv`).

Theorems: `C11_position_power`. Every position of every reachable state whose period is a multiple of 3 days.

### C12 Bound on the number of locking positions (proved)
Invariant `allv` on the number of positions; import and mirror included.

Theorems: `C12_positions_bounded`. Every reachable state; no proviso.

### C13 Bound on the number of voted addresses (proved)
`Inv`: number of addresses per voter; the off-by-one of the check in the code is the refutation.

Theorems: `C13_addresses_bounded`, `C13_refuted`. max_voting_positions + 1 holds for every history; the documented bound is refuted.

### C14 One locked position per unbonding period (proved)
Invariant `allv`: locked positions have pairwise different periods.

Theorems: `C14_one_locked_per_period`, `C14_refuted`. Proved for histories without extend-days; refuted with it.

### C15 Unbonding periods respect the configured bounds (proved)
Step theorem on the growth of positions, invariant for < 3600, history theorem for a quiet configuration.

Theorems: `C15_growth_in_bounds`, `C15_all_below_3600`, `C15_periods_in_bounds`, `C15_refuted`. Growth only inside the configured bounds; all periods below 3600; all periods in bounds when the configuration is quiet; refuted with extend-days.

### C16 Unclaimed totals match individual claims (proved)
Invariant of the two claim maps (MVClaims.v).

Theorems: `C16_unclaimed_totals`, `C16_accumulated`. Every reachable state; no proviso.

### C17 Reward distribution is exact or rejected (proved)
List induction on the distribution loop; both directions (accepted iff the exact sum).

Theorems: `C17_distribution_exact`, `C17_exact_list_accepted`. Every state, list and message, in both directions.

### C18 Claims pay at most what was distributed (proved)
Ghost sums over the history (`run_sum`), per account.

Theorems: `C18_claims_bounded`, `C18_stnear_claim_paid`. Every history, per account.

### C19 Anyone with claimable mpDAO can lock it (proved)
Forward execution of claim_and_lock for a registered voter under explicit bounds; refuted for others.

Theorems: `C19_voter_can_lock`, `C19_refuted`. Proved for registered voters; refuted for accounts that are not.

### C20 Only the owner and operator change configuration (proved)
Case analysis of all operations, on a projection of the state to its configuration.

Theorems: `C20_owner_config`, `C20_operator_lock_filters`, `C20_constants`, `C20_setters_exact`, `C20_setters_available`. Every call, every state.

### C21 Calls do not touch other voters (proved)
Frame theorem over `call_target` from the strong invariant (MVFrame.v, MVIso.v).

Theorems: `C21_other_voters_untouched`, `C21_refuted`. Proved for every call after every history with collision-free vote targets; refuted for colliding names.

### C22 EVM delegation is a consistent function (proved)
Invariant of the two delegation maps (MVDeleg.v).

Theorems: `C22_delegation_consistent`, `C22_confirm_never_stuck`, `C22_remove_never_stuck`. Every reachable state; confirming and removing never panic on internal lookups.

### C23 Delegated actions need the current delegation (proved)
Exact effect of the delegated calls with a frame.

Theorems: `C23_delegated_actions`. Every reachable state and caller; frame on all other accounts; the claim pays the delegate.

### C24 Delegation needs consent of the account and the operator (proved)
History theorem on the last pre-delegation and its confirmation; step theorems listing the calls that change a delegate.

Theorems: `C24_delegation_consent`, `C24_changes`, `C24_requests`, `C24_reviewed_request_refuted`. History theorem: the delegate asked and the operator confirmed that request; exact list of calls that change a delegate or a request; refuted that the reviewed request is the confirmed one.

### C25 Vote lock-in prevents removing votes (proved)
Guards of the removing calls in every state; monotonicity of votes for every other call from the strong invariant.

Theorems: `C25_removals_rejected`, `C25_votes_kept`, `C25_rebalance_refuted`. unvote, unvote_delegated and rebalance to zero are rejected in every state; no other call lowers votes (collision-free histories without zero votes; operator mirroring excepted); refuted for rebalance to a smaller amount.

### C26 Balance view is what withdraw_all pays (proved)
Exact effect of withdraw_all against get_balance.

Theorems: `C26_withdraw_all_pays`, `C26_withdraw_all_zero`. withdraw_all pays exactly get_balance and leaves zero withdrawable.

### C27 Locked, unlocking and unlocked partition the positions (proved)
Pure list theorems over the three flags.

Theorems: `C27_flags`, `C27_partition`, `C27_views_total`. Flags mutually exclusive; the three sums and the balance partition the deposits, for every state.

### C28 Clearing positions clears exactly the requested unlocked ones (proved)
Sort-descending and swap-remove loop shown to remove exactly the unlocked requested indexes (MVClear.v).

Theorems: `C28_clear_exact`, `C28_out_of_range`. Exact effect of clear_locking_position and its panics.

### C29 Votes can always be withdrawn (proved)
Strong invariant gives success of unvote; refutation uses a stale record left by a zero vote.

Theorems: `C29_unvote_succeeds`, `C29_delegated_unvote_succeeds`, `C29_refuted`. Own and delegated unvote; refuted when zero-power votes are allowed.

### C30 Voting calls do exactly what they say (proved)
Exact effect of the voting calls (MVVoteEff.v) with the frame `only_vote_changed`.

Theorems: `C30_vote`, `C30_vote_delegated`, `C30_unvote`, `C30_unvote_delegated`, `C30_rebalance`. Exact effect of vote, rebalance, unvote and the delegated forms, with a full frame condition.

### C31 Mirroring sets the account to the external positions (proved)
Loop theorem on the mirror (MVMirror.v): the votes that go are those of an independent rule; totality by the measure of remaining votes.

Theorems: `C31_mirror_effect`, `C31_mirror_total`. Exact effect, votes dropped in listing order by an independent rule; totality for all well-formed position lists (includes termination of the removal loop).

### C32 Migrated user data belongs to the migrated user (proved)
Refuted by a four-call history; exact effect proved.

Theorems: `C32_migrated_data_refuted`, `C32_migrated_data_goes_to_old_contract`. Refuted; exact effect on user data proved.

### C33 State upgrade loses nothing (proved)
Migrate.v: Borsh codec of the old and new STATE records, decode(encode) = id with any suffix, migrate() on bytes.

Theorems: `C33_migrate_preserves`, `C33_only_contract_account`, `C33_only_once`, `C33_reachable`. Down to the Borsh bytes of the STATE record, for every content of the other records; a second migrate() is refused.

### C34 Paginated listings are complete and duplicate-free (proved)
Pages of `map_page` over index ranges; concatenation of pages is the listing, NoDup from the map invariants.

Theorems: `C34_claims`, `C34_stnear_claims`, `C34_airdrop_accounts`, `C34_delegates`, `C34_voters`. Every reachable state, every page size; get_voters for collision-free histories; get_delegates needs in-range starts because it panics otherwise.

### C35 Storage maps behave like finite maps with swap-remove order (proved)
Collections.v: refinement of any number of storage-level maps to finite maps by induction over operation lists; order law for swap-remove.

Theorems: `C35_storage_maps_are_maps`, `C35_iteration_order`. Any number of collections, any operation sequence, at the level of the storage records; a collection is re-created only while empty (needed: see the example).

### C36 Airdrop registration is paid and authentic (proved)
Exact effect and frame over all operations.

Theorems: `C36_own_registration`, `C36_operator_list`, `C36_nobody_else`. Every state; including that no other call changes the data.

### C37 Deposits need real tokens and the minimum amount (proved)
Characterisation of every accepted ft_on_transfer call; JSON decoder is an arbitrary function of the message.

Theorems: `C37_deposits`, `C37_consumed`, `C37_period_text`. Every state, caller, sender, amount and message; JSON decoding of the pair is a parameter.

### C38 MPIP tallies equal the recorded votes (proved)
Mpip.v world (state + callbacks in flight). Invariant of tallies against records with at most one vote in flight per voter and proposal; inequality without the proviso; refutation by two votes in flight.

Theorems: `C38_tallies_exact`, `C38_tallies_never_below`, `C38_refuted`. Exact for every interleaving in which nobody votes on a proposal while an own vote on it is in flight; tallies are never below the recorded sums in any interleaving; refuted without the proviso.

### C39 Removing a vote never gets stuck (proved)
Forward execution from the tally invariant.

Theorems: `C39_remove_vote_total`. Every reachable state, including those where double votes made the tally exceed the records.

### C40 Voter-side and proposal-side records agree (proved)
Invariant of the two record maps (MpipInv.v).

Theorems: `C40_records_agree`. Every reachable state.

### C41 Proposal ids are dense and proposals permanent (proved)
Invariant of the proposal map: ids are 0..n-1 in order.

Theorems: `C41_ids_dense`, `C41_creation_order`, `C41_permanent`. Every history with fewer than 2^32 proposals.

### C42 Cancelled and executed are final and exclusive (proved)
Monotonicity of the two flags over continuations (MpipLife.v).

Theorems: `C42_final_states`, `C42_final_flags`. Every continuation of every history with fewer than 2^32 proposals.

### C43 Execution requires acceptance (proved)
Step theorem for the executed flag.

Theorems: `C43_execution_needs_quorum`, `C43_refuted`. Quorum half proved for every event; the for > against half is refuted.

### C44 Accepted proposals can be executed (proved)
Forward execution at the end millisecond; after it `process` cannot execute in any continuation.

Theorems: `C44_executable_at_the_end`, `C44_missed_forever`, `C44_refuted`. Succeeds exactly in the end millisecond; after it the proposal stays unexecuted in every continuation (no start call in flight); the claim as stated is refuted.

### C45 Votes are counted only during the voting period (proved)
Guards of the calls; origin of every vote callback (`pend_origin`).

Theorems: `C45_vote_calls_only_in_window`, `C45_removals_only_in_window`, `C45_counted_votes_cast_in_window`, `C45_refuted`. Rejection of calls outside the window, and window at the time of the call for every counted vote, proved; counting at answer time inside the window is refuted.

### C46 Vote weight is the voter's locked voting power (proved)
Exact effect of the vote callback on the record.

Theorems: `C46_vote_weight`, `C46_failed_answers_count_nothing`. Every answer in every reachable state.

### C47 MPIP administration needs the direct caller's authority (proved)
Step theorem on roles and settings in terms of the signer; refuted for the predecessor by a relaying contract.

Theorems: `C47_signer_has_the_role`, `C47_settings_change_only_by_role`, `C47_refuted`. Holds for the signer; refuted for the direct caller.

### C48 Quorum arithmetic (proved)
Arithmetic of quorum and bound of the floor as an invariant.

Theorems: `C48_floor_bounded`, `C48_quorum`. Every event in every reachable state with fewer than 2^32 proposals.

### C49 The voting window is set once (proved)
Invariant with at most one start in flight; two refutations.

Theorems: `C49_window_set_once`, `C49_refuted`. Holds with at most one start call per proposal in flight and no start call in the start millisecond; refuted otherwise.

### C50 The Active state is never observed (proved)
Invariant relating time and flags over sorted histories.

Theorems: `C50_never_active`. Every history with non-decreasing time, every query time not before its last event.

### C51 Proposal content is editable only by its creator before voting (proved)
Step theorem on contents.

Theorems: `C51_content_edits`. Every event in every reachable state with fewer than 2^32 proposals.

### C52 Proposal creation needs threshold, storage deposit and an open contract (proved)
Origin of the callback and exact effect of creation; refuted for the identity of the creator.

Theorems: `C52_creation`, `C52_refuted`. Every interleaving; that the creator is the checked account is refuted.

### C53 KV store is a map writable only by its operator (proved)
KV.v at record level, refinement to a finite map by induction over calls.

Theorems: `C53_last_write`, `C53_authorised`, `C53_roles`, `C53_remove`, `C53_count`, `C53_pages`. Whole contract, map at the level of its storage records; any callers, any history.

### C54 Token supply changes only by mint and burn (proved)
Token.v ledger: sum of balances = supply, by induction over calls including private resolves.

Theorems: `C54_supply_is_sum`, `C54_calls`, `C54_history`. FungibleToken (near-contract-standards, not in /repo) is modelled from the published library; the theorem ranges over arbitrary private resolve calls, a superset of the real ones.

### C55 stNEAR conservation of every call (proved)
As C05 for stNEAR.

Theorems: `C55_stnear_conserved`. Every call in every reachable state.

### C56 The contract is always solvent in stNEAR (proved)
As C06 for stNEAR.

Theorems: `C56_solvent`, `C56_claim_funded`, `C56_failed_claim_restored`, `C56_rejected_transfer_refunded`, `C56_repointed_refuted`. The stNEAR contract is not in /repo; its ledger is assumed to behave like the token of test-meta-token. Refuted by a witness if the owner repoints the stNEAR address.

### C57 Every account can take out everything it owns (proved)
From any reachable state and any account a list of further calls is constructed (unvote all, unlock all, withdraw_all) and shown to succeed; the deficit component of `Inv` shows when it cannot.

Theorems: `C57_exit`, `C57_power_accounted_per_account`, `C57_shortfall_permanent`, `C57_double_unlock_freezes`, `C57_refuted`. exit theorem by appending to the history (unvote all, unlock all, withdraw_all); permanence of a shortfall by a per-account deficit in the invariant; C57_refuted exhibits an account that can never leave.

### C58 Only the previous governance contract and the operator can create tokens on the books (proved)
From C05 and the guards of the two importing calls.

Theorems: `C58_imports_need_authority`. Follows from the accounting theorem of C05 and the guards of the two importing calls. The previous governance contract is the current setting (the owner can change it, C20).

### C59 Minimum deposits (proved)
Step theorems on locked amounts; invariant that no position is empty.

Theorems: `C59_minimum_deposit`, `C59_partial_unlock`, `C59_no_empty_position`, `C59_positions_above_minimum_refuted`. Growth of locked tokens, remainder of partial unlocks and absence of empty positions proved; the claim about the size of every locked position is refuted with a four-call history. relock_position has no minimum in the code.

### C60 The list of accounts (proved)
Step theorem on `voter_ids` for every operation.

Theorems: `C60_list_of_accounts`. Exact: who enters, who leaves and with what payment, and the condition after a withdrawal.

### C61 Delegated EVM addresses contain no dot (proved)
Invariant of the three delegation maps.

Theorems: `C61_no_dot`. Invariant over the three delegation maps.

### C62 The reported state of a proposal is the one its data call for (proved)
Specification relation `reported` over the public data; the view is shown to be its unique solution.

Theorems: `C62_state_reported`, `C62_state_unique`. The specification `reported` is a separate relation; C62_state_unique shows it determines one state. Overflow of for + abstain is the only excluded case.

### C63 Pages of proposals are exact (proved)
Pages of get_proposals against the list of proposals by id.

Theorems: `C63_page`, `C63_all_pages`. `few_proposals`: fewer than 2^32 ids, the range of the u32 id.

### C64 Voting windows come only from a start and have the configured length (proved)
Step theorem on start/end dates.

Theorems: `C64_window`. Shown for one step from any reachable state, hence for all histories.

### C65 Proposal votes, quorums and creation use the real voting power of one moment (proved)
Gov.v: both contracts composed, three separate moments for call, view and callback. Projection lemma from the composed run to the Mpip world and to the meta-vote run.

Theorems: `C65_vote_power`, `C65_quorum`, `C65_creation`, `C65_within_current_power_refuted`. Proved in the composed model Gov.v. Hypothesis `linked`: the proposal contract's registered voting contract is this one and stays so. The stronger reading (recorded power at most the current total power) is false of the code: C65_within_current_power_refuted.

### C66 No token backs two votes on a proposal, if voting is shorter than unbonding (proved)
Composed model: for every token locked at the moment of a counted vote, a second counted vote needs an unlock and a full unbonding in between; contradiction with the window by time arithmetic (GovProofs.v).

Theorems: `C66_no_token_votes_twice`, `C66_any_voting_period_refuted`. Positive theorem with the proviso on periods; C66_any_voting_period_refuted shows the proviso is needed (40 day voting period, 30 day unbonding).

### C67 The views that list votes agree with each other (proved)
Insertion sort is shown to be a sorted permutation; the nested maps are related to the abstract votes by the representation relations of MVVotes.v, which hold in every reachable state (MVVoteViews.v).

Theorems: `C67_votes_by_voter`, `C67_votes_by_address`, `C67_zero_vote_refuted`. Positive theorems for the account and address views; C67_zero_vote_refuted shows that without "no vote of zero power" the per-object view and the list can disagree.

### C68 Storage records of different collections never overlap (proved)
Borsh keys are byte strings; injectivity from fixed lengths and decoding. Operations on raw bytes in one gmap of strings simulate the cells of UMap.v, one collection at a time, with a frame for all others (FlatProofs.v).

Theorems: `C68_metavote_keys_distinct`, `C68_voter_address_keys_refuted`, `C68_mpip_keys_distinct`, `C68_kv_keys_distinct`, `C68_token_keys_distinct`, `C68_metavote_collections_separate`, `C68_collections_separate`, `C68_prefixes_must_be_free_refuted`. Keys of all four contracts, and a refinement of the collections down to bytes. C68_voter_address_keys_refuted is the exception named in the statement (the collision-free hypothesis of C03, C21 and others); C68_prefixes_must_be_free_refuted shows the proviso on prefixes is needed. keccak256 is an arbitrary 32-byte function; near-sdk's key layout is trusted.

### C69 NEAR attached to and sent by the contracts (proved)
Case analysis over all calls for the deposits, sums over the history by induction; for proposals the invariant that proposals plus pending creations never exceed the accepted creations (Near.v). Refutations by witnesses.

Theorems: `C69_call`, `C69_history`, `C69_claims_cost_refuted`, `C69_delegated_claim_refuted`, `C69_mpip_call`, `C69_mpip_paid`, `C69_mpip_kept_refuted`, `C69_mpip_queries_refuted`. Positive statements for every call and history; four natural stronger claims are refuted by witnesses (each stNEAR claim and each query costs the contract one yoctoNEAR, delegated claims keep any deposit, a failed proposal creation keeps the deposit).

### C70 Token calls succeed exactly when they should (proved)
Each call's conditions and role changes are a table over the views; both directions by case analysis under the ledger invariant of C54 and duplicate-freedom of the minters, the history of minters by induction from the right (TokenRoles.v). `C70_notified`: the list of promises of every accepted call is computed and compared.

Theorems: `C70_accepted_exactly`, `C70_roles`, `C70_minters`, `C70_resolve`, `C70_notified`. The FungibleToken library itself is not in /repo and modelled from its published source.

### C71 Calls of the voting contract succeed exactly when they should (proved)
Condition `allowed` (MVSpecAccept.v), by cases over the calls, written over views only. MVAccept*.v: in a reachable state every step of an allowed call returns a value or one of the four panics of additions, multiplications and casts (`too_big`; a subtraction below zero is not among them); conversely the conditions are read off a successful call. Facts used about reachable states: votes exactly represented, tallies equal to the sums of votes, at most 255 positions, periods below 3600 days. `C71_no_tokens`: total votes plus free power are at most the total voting power, which fits in 128 bits.

Theorems: `C71_accepted`, `C71_no_tokens`. Provisos: no colliding storage prefixes (C01), no zero-power votes (C03), position lists without repetitions. too_big panics remain possible only for calls that add tokens.

### C72 Every call changes everything shown exactly as specified (proved)
MVSpecStep.v is the specification: a record of plain functions (`ledger`), `observe` reading it off the views, `enabled`, `next`/`becomes` (for mirroring a relation, since any order of dropping is allowed) and `pays`, using none of the model's functions. MVStep.v-MVStep7.v prove per call that the model's step commutes with `observe` (from the invariant of MVInv.v and the inversion lemmas of MVCases.v) and that `enabled` over the ledger is the `allowed` of C71. MVStep8.v shows that the specification respects equality of ledgers, hence C72_no_hidden_state.

Theorems: `C72_step`, `C72_init`, `C72_no_hidden_state`. Refinement of a complete ledger specification, over all histories; the 128-bit proviso names the panic (too_big).

### C73 Every call and answer changes the proposal contract exactly as specified (proved)
MpipSpecStep.v is the specification on plain functions: `observe` reads the board off the views (settings without a view off the state), `may`, `asks`, `after`, `says`, `accepts`, `done`, `moves`; none of the model's functions. MpipStep.v and MpipStep2.v prove both directions for every call and callback, from the invariants of C38-C41 (records agree, ids dense) and a new one (a started proposal has an end and a quorum), so no unwrap can fail. Not on the board: the order in which a proposal's votes are listed.

Theorems: `C73_step`, `C73_result`, `C73_init`, `C73_determined`, `C73_no_hidden_state`. Refinement of a complete specification with exact overflow conditions.

### C74 Every view answers what the ledger holds (proved)
MVSpecViews.v gives, for each view, its answer as a relation to the ledger of MVSpecStep.v (no model function is used but the views themselves); MVViews.v derives it from the storage invariants of C01-C04, C16, C22, C34 and C67. Together with C72 this determines the answer of every view after every history. Sums are exact or the view panics ([is128]). The order of the listings is left open, except that pages are consecutive slices of one list. Zero-power votes are excluded because of C67_zero_vote_refuted.

Theorems: `C74_accounts`, `C74_lists`, `C74_others`. all views of meta-vote; hypotheses collision_free and no_zero_votes as in C72

### C75 Every view of the proposal contract answers what the board holds (proved)
MpipSpecViews.v gives each view's answer as a relation to the board of MpipSpecStep.v; state_at lists the condition of each state, and since get_proposal_state is characterised by an equivalence the conditions are exclusive and, where the view does not panic, exhaustive. MpipViews.v derives it from the invariants of C38-C42, C62-C63. Together with C73 this determines the answer of every view after every history.

Theorems: `C75_proposals`, `C75_votes`. Vote views for every reachable state; proposal views while fewer than 2^32 proposals exist (ids are u32).

### C76 Just which calls of the voting contract are accepted, and whole histories (proved)
MVSpecFits.v lists, over the ledger of C72, the numbers that must fit (`fits`) and defines `leads`, the histories of the specification. MVFits.v-MVFits3.v show per call that the model's step has no overflow panic when they fit (`nf`), using the invariant that all totals shown are already below 2^128 and dominate their parts, and conversely that an accepted call makes them fit. MVFits4.v chains C72 and C76_accepted along a history, and shows that `leads` is functional.

Theorems: `C76_accepted`, `C76_history`, `C76_determined`, `C76_no_hidden_state`. Closes the 128-bit proviso of C72: acceptance is an equivalence; histories are refined as a whole.

### C77 No call fails by overflow with a realistic token supply (proved)
MVSmall.v bounds the drift of a position's power from amount·10^18·days/60 by the length of the history and concludes power <= 60·10^18·amount for days < 3600; summed over all voters the total power is bounded by the tokens locked (`total_lean`, `total_slack`), and these with the balances and claims by `mp_owed`. MVSmall2.v then discharges every number of C76's `fits` for an enabled call. WorldHeard.v lists the calls the contract hears in the world of World.v; WorldSmall.v shows that what is owed plus what the call brings is in the contract's token balance or in flight (the invariant behind C06), hence at most the supply.

Theorems: `C77_accepted`, `C77_power_bounded`, `C77_world`, `C77_heard`. Contract level (C77_accepted) with the owed tokens as the bound, and world level (C77_world) with the supply as the bound. The mirrored positions and the colliding prefixes are excluded by hypothesis.

### C78 Calls taking a list do what single calls in sequence do (proved)
MVBatch.v: chains of accepted single calls as an inductive relation; collecting one index saves the voter once, and saving twice is saving the last (ordered maps keep positions), so the chain of single calls is the fold of the model over the sorted list; the final removal of an emptied voter commutes with the saves. MVBatch2.v does the same for migration and, generically in the token, for rewards (the all-time counter is added to once per item instead of once). MVBatch3.v unpacks a whole history.

Theorems: `C78_collect`, `C78_withdraw`, `C78_airdrop`, `C78_migrate`, `C78_reward`, `C78_history`. Equality of states, not only of views. Mirroring is not a sequence of single mirrorings (each replaces all positions) and is left out.

### C79 Accounts do not influence each other, and calls of different accounts commute (proved)
MVSpecPrivate names the account of a call; MVPrivate shows on the specification of C72 that such a call reads and writes that account, the settings and the delegations only (aside_next, local_next, local_enabled); MVPrivate2 lifts it to the model with C72 and C77 by induction over the sequence, and shows that totals and tallies are determined by the accounts (C02, C03, C16).

Theorems: `C79_private`, `C79_reorder`, `C79_commute`, `C79_collision_refuted`. Settings, announcing and confirming delegations, reward distributions, migration and mirroring act on more than one account and are not in the sequences.

### C81 The token's events tell all balances (proved)
TokenLog.v models each event and log line as a function of the state before the call. A reader with one signed number per account and one for the supply is specified beside it. Induction over the history from the exact effect of every call (C54).

Theorems: `C81_replay`, `C81_events`, `C81_events_refuted`. Which events FungibleToken emits is taken from the published near-contract-standards, whose source is not in /repo: transfers, refunds and the burn of a refund to a closed account emit one, storage_unregister none. C81_replay holds even if the library emitted no line of its own for closing, since the contract's line "Closed @.. with .." is read. Memos and the JSON text are not modelled.

### C82 The lines about money match the tokens (proved)
WorldLog.v gives the lines written in every event of World.v. Two quantities change by the same amount in every event (said to be sent + waiting + lost, and moved); a third inequality for deposits; induction over events with the invariant of C06. The tokens' part lifts C81.

Theorems: `C82_sent`, `C82_sent_stnear`, `C82_held`, `C82_tokens`, `C82_repointed_refuted`. Excludes pointing the stNEAR address to the mpDAO token (C82_sent, C82_held) or away from stNEAR (C82_sent_stnear), which is shown necessary.

### C80 The log tells the votes (proved)
MVLog.v models each log! statement as a function of the state before the call and the text it prints; MVSpecLog.v is the reader of the log, independent of the contract. The replay theorem is by induction over the history, from the step theorems of C73 (which tell what each call does to the votes) and, for mirroring, an induction over the loop that drops votes. Distinctness of texts: the words of a text are recovered by splitting at spaces; the object id, which may hold anything, is what remains between fixed parts. The lines about positions are read against the shown positions before and after, from the step theorem of C72.

Theorems: `C80_replay`, `C80_text`, `C80_render`, `C80_text_refuted`, `C80_godspeed`, `C80_deposit`, `C80_deposit_from_refuted`, `C80_mirror`, `C80_direction`, `C80_positions`, `C80_one_line`, `C80_many_lines`. Votes of zero and colliding storage names are excluded as in C73. That NEAR aborts calls writing over 100 lines is outside the model; the theorem only shows that the number of lines of one mirroring call is not bounded.

### C83 All votes are covered by voting power and all power by tokens (proved)
MVBooks.v: the invariant J (sum of all tallies + sum of all available power <= total_vp, no duplicate keys) is kept by every call without any proviso; the mirror call moves exactly what its loop removes from the tallies. MVCover.v: the exact equality under collision_free and no_zero_votes by double counting (C67 lists of each voter against C03 tallies), and the bound by locked mpDAO from the bound of every position's power. WorldCover.v joins this with the solvency theorem of the world (C06).

Theorems: `C83_votes_covered`, `C83_never_exceeded`, `C83_power_covered`, `C83_tokens_held`, `C83_extend_refuted`. C83_never_exceeded has no proviso. C83_votes_covered gives the equality; the power part needs collision_free because mirroring with colliding names can drift a voter's power. C83_extend_refuted: extend ignores the configured maximum.

### C84 Every token the contract holds is accounted for (proved)
WorldExact.v: for every event the change of (owed + in flight) and the change of the contract's balance differ by exactly `given` + `stranded`; built from the exact conservation equations of every call (C05, C55) and of every token call (C54), with solvency (C06, C56) to show that refunds and restorations are never cut short. Induction over the events from the end. Pending deposits never come from the contract itself (invariant `senders`).

Theorems: `C84_accounted`, `C84_settled`, `C84_surplus_stays`, `C84_payment_ends`, `C84_deposit_ends`, `C84_callback_refuted`. For mpDAO no mirroring/migration and the stNEAR address not pointed to the mpDAO token (`calm`, as in C06); for stNEAR the address is kept. C84_callback_refuted: with a failing callback receipt the account loses the payment.

### C85 Only an account's own transfers take tokens from it (proved)
WorldSafe.v: `owns` adds the wallet, the books and the account's own pending receipts; per call `mv_safe` compares the books before and after with the effects (from the case analysis of all calls, `vchg_owe`, and the claims ledger), per receipt `pay_safe`, `back_safe`, `resolve_safe`, `deliver_safe`; solvency (C06/C56) makes the putting back of a failed transfer succeed. Induction over the history. Refuted without the two exceptions.

Theorems: `C85_never_taken`, `C85_never_taken_imports`, `C85_mirrored_refuted`, `C85_dropped_refuted`. Mirrored accounts and lost callbacks are shown to be real exceptions by the two _refuted theorems.

### C86 Storage fees of the token are neither lost nor paid twice (proved)
TokenNear.v models the NEAR transfers of storage_deposit and storage_unregister beside Token.v (`t_near_out`); `near_step` proves the equation for each call by case analysis, with the number of registered accounts as a sum over the map; induction over the history.

Theorems: `C86_held`, `C86_bound`, `C86_received_refuted`, `C86_deposit`, `C86_unregister`. The fee of the owner's account, registered free of charge at deployment, can be withdrawn: C86_received_refuted.

### C87 Everything deposited can be brought back to the wallet (proved)
World.v with `heard` (the calls the contract sees). C57's constructed exit is carried to the world; the transfer's receipt is shown to succeed by the solvency invariant (C06); the bound of owned amounts by 2^128 follows from it, too.

Theorems: `C87_exit`, `C87_claim`, `C87_imports_refuted`. Existence of the calls with their success and the final token balance; stNEAR claims; refuted with mirrored positions, for which the contract may hold no tokens.

### C88 Every number fits its type (proved)
An invariant on the model's state gives every field, every map value and every storage cell of the votes its range, kept by every call (MVSized.v); unlocking times are below 2^64/10^6 because the block time is a u64 of nanoseconds. Stated on the ledger of C72. The model's numbers are unbounded naturals with explicit panics, so this also shows that the model leaves no silent overflow out. Examples: a run through most calls; the bounds themselves reached, and the call that would pass one refused.

Theorems: `C88_stored`, `C88_sent`. Also closes the gap between the model's unbounded naturals and the Rust integers.

### C89 Every number of the proposal contract fits its type (proved)
An invariant on the model's state gives every field and every map entry its range, kept by every call and every callback; questions in flight carry ids of existing proposals (MpipSized.v). Stated on the board of C73. Examples: a run whose tally reaches 2^128-1; bounds reached, and the vote, the voting period, the total and the answer that would pass one refused.

Theorems: `C89_stored`, `C89_sent`. Counterpart of C88 for mpip-contract; the token's supply and balances are covered by C54.

### C90 Messages are read as the JSON they are (proved)
Json.v models serde_json (de.rs, read.rs, ser.rs of the published library, whose source is not in /repo) on the two types as a recursive-descent reader; JsonSpec.v gives a grammar relating texts and values, with its own hexadecimal, UTF-8 and decimal definitions. Soundness and completeness are proved part by part: white space, bytes, hexadecimal, UTF-8 encoding against its decoding equations, string contents by induction on the text and on the grammar, numbers, pairs, lists with fuel (JsonProofs.v). Examples: a text using every construct; texts refused for each reason.

Theorems: `C90_pair`, `C90_claims`, `C90_round_trip`. The voting model itself takes the readers as arbitrary functions, so all its theorems hold for this one; C91 instantiates them.

### C91 A transfer does what its message says (proved)
MVSpecMsg.v defines the meanings of a text by the grammar of C90 and decimal numbers, when the ledger of C72 allows each and what it becomes. With the readers of the model instantiated by the serde_json model of C90, its conditions are shown equivalent to those of C72 and C76 (MVMsg.v); the slicing conditions of the code (bytes 1 and 11) are shown to hold by themselves except for deposits for another account. Examples: the three forms in one history; a well-formed message with a non-ASCII name that the code refuses because it cuts it in the middle of a character.

Theorems: `C91_one_meaning`, `C91_accepted`, `C91_effect`, `C91_written`. Hash assumption as in C72; needs that no vote of zero was cast (C25).

### C92 Votes on proposals cost tokens (proved)
Sys.v joins World.v and Gov.v on the state of the voting contract; SysProofs.v projects every history to one of Gov.v (the calls that the voting contract hears) and one of World.v. The freezing argument of C66 (`backed`) gives the tokens behind each vote, the position bound of C77/C83 turns them into power, solvency (C06) into the token ledger, C38 the tallies, C65 the quorum.

Theorems: `C92_voters_hold_tokens`, `C92_tallies_need_tokens`, `C92_acceptance_needs_tokens`, `C92_quorum_recorded_refuted`, `C92_tallies_refuted`. Positive theorems with the proviso on votes in flight; the two _refuted theorems show it is needed (the callback does not check again whether the account has voted).

### C93 The contracts understand each other (proved)
Wire.v models serde_json for derived types; WireProofs.v proves the round trip by induction on types and values, and that near-sdk's account id check accepts exactly the pattern of WireSpec.v. Post.v models the four contracts passing texts. PostSpec.v gives the exact texts independently (templates) and says when a receipt is the text of a value in flight in Sys.v. PostProofs.v proves a simulation by induction over histories: sizes of all numbers from C88, account ids from the callers. Sys.v is then no simplification as far as encoding goes.

Theorems: `C93_round_trip`, `C93_account_ids`, `C93_system`, `C93_voters_hold_tokens`. Calls from outside carry values; failed callbacks of the proposal contract are gone here and wait for ever in Sys.v (list lost).

### C94 Everything arrives as text: every call is refused or is a typed call (proved)
Entry.v lists for every state-changing public method the names and types of its parameters and reads the text with the JSON reader of Wire.v (white space, escapes, any order, ignored members, arrays for records, optional members left out). EntrySpec.v writes the plain text, the declared parameters and the types of each call by hand, independently of the tables, and defines what it is for a text to mean a call (mv_means, tok_means, board_means, kv_means): the theorems are equivalences between the reader and the meaning. Soundness: whatever the reader accepts has the type (read_has, by induction over the depth of the type) and says the same as the plain text (read_args_says, json_obj). The system part, stated with the meanings, extends the simulation of C93 by the calls read from texts.

Theorems: `C94_voting_contract`, `C94_token`, `C94_proposal_contract`, `C94_kv_store`, `C94_system`, `C94_voting_history`, `C94_voting_sizes`, `C94_proposal_history`, `C94_voters_hold_tokens`. views, init methods and private callbacks called from outside change nothing and are not listed; migrate is C33

### C95 The result of a vote does not depend on the order of the votes (proved)
MpipSpecOrder names the voter of an event and the board of C73 up to the order of questions of different voters. MpipOrder shows on the specification of C73 that an event reads only its voter's ballots and questions and the proposals, and adds to or takes from the tallies (step_yields, yields_local, yields_fun); events of different voters commute (swap), an event moves before those of others (to_front), induction over the sequence gives the reordering; C73 lifts it to the model.

Theorems: `C95_private`, `C95_reorder`, `C95_outcome`, `C95_any_power_refuted`. Closing, starting, creating and settings are not in the sequences. C95_any_power_refuted: with answers summing to more than u128 the order matters.

### C96 Views: every question is refused or answered with the JSON text of what the contract holds (proved)
Ask.v: tables of view methods (names, declared parameter types) and answers as JSON values, written by Wire.v; AskSpec.v: questions, parameter types, reply texts by hand (obj, arr, quote, big), declared result types, what is the same. AskProofs.v: every row read (reading gives typed values and determines the text up to what json reads), every reply equals the written value. AskMv.v/AskBoard.v/AskRest.v: values have the declared types (sizes from C88/C89; new invariants: creators, voters, token owner and minters are account ids), values are injective, json_ok.

Theorems: `C96_voting_answers`, `C96_voting_questions`, `C96_voting_readable`, `C96_voting_tells`, `C96_proposal_answers`, `C96_proposal_questions`, `C96_proposal_readable`, `C96_proposal_tells`, `C96_token_answers`, `C96_token_questions`, `C96_token_readable`, `C96_token_tells`, `C96_kv_answers`, `C96_kv_questions`, `C96_kv_readable`, `C96_kv_tells`. Readability is proved with hypotheses that hold for what can be called: typed numbers (sized_call/sized_event), callers are account ids, fewer than 2^64 map entries.

### C97 The key-value store from the text of a call to the bytes in storage (proved)
`KVBytes.v` is the contract with the code near_bindgen generates, Borsh and UnorderedMap on a map from byte strings to byte strings. `KVBytesSpec.v` gives the book: `accepts` says which texts mean which call (through `reads_as`, not the reader), who may call and what is returned; `history` runs it. Induction over the calls with a representation relation: the decoded STATE record, the flat cells of C68 refined by the list of entries, and the footprint of keys (`KVBytesProofs.v`).

Theorems: `C97_calls`, `C97_determined`, `C97_records`, `C97_nothing_else`, `C97_within`, `C97_usual`. near_bindgen, near_sdk collections and Borsh written from the published libraries; Borsh's UTF-8 check left out

### C98 The token from the text of a call to the bytes in storage (proved)
TokBytes.v: near_bindgen, Borsh, LookupMap, LazyOption and FungibleToken on raw storage. Each function is shown to do on the bytes what the function of Token.v does on the ledger (relation `Acc`: every account's record, the metadata record and no other key); the readers are tied to the texts by the `*_means` relations of C94; histories by induction from the right (TokBytesProofs.v).

Theorems: `C98_calls`, `C98_determined`, `C98_records`, `C98_reached`, `C98_supply`, `C98_few`. near_bindgen, near_sdk collections, near-contract-standards and Borsh written from the published libraries; Borsh's UTF-8 check left out; `new` with metadata given by the caller, gas and events not in this model

### C99 The proposal contract from the text of a call to the bytes in storage (proved)
BoardBytes.v: near_bindgen, Borsh and UnorderedMap with nested maps on raw storage. BoardMaps.v relates one map to a list, with the keys of other maps apart; BoardStore.v relates the storage to the state of Mpip.v (relation `Maps`: four maps, and two families of inner maps) and shows that each read and write on bytes does what it does on the lists; BoardSim.v does so for each method and callback; BoardText.v ties the readers to the texts; ReadLen.v shows that what is read is no bigger than the text; the relation also says that every key present belongs to one of the maps and to an entry of it; histories by induction from the right (BoardBytesProofs.v).

Theorems: `C99_calls`, `C99_determined`, `C99_records`, `C99_nothing_else`, `C99_before_new`, `C99_reached`. near_bindgen, near_sdk collections and Borsh written from the published libraries; Borsh's UTF-8 check, gas and the log line not in this model; a hash collision is excluded by hypothesis

### C100 The voting contract on the bytes in storage (proved)
MVBytes.v models the contract again on a finite map from storage keys to bytes: every method loads what it reads, decodes it with the Borsh readers, and writes back what the Rust code writes, with near_sdk's UnorderedMap, LookupMap and Vector on raw keys. MVStore.v says when bytes stand for a state of MetaVote.v (one clause per storage prefix, the prefixes kept apart by the hash); MVCells.v, MVRep.v, MVSim.v, MVPositions.v, MVBallots.v and MVMethods.v show for each of the 36 operations that the two models accept the same calls, send the same transfers and stay in that relation; MVBytesProofs.v carries it over histories and reads off the bytes. The layouts of the records are written down separately in MVBytesSpec.v.

Theorems: `C100_new`, `C100_calls`, `C100_records`, `C100_ballots`, `C100_once`, `C100_before_new`, `C100_future`. The calls are typed; the JSON reader in front of them is C94's. near_bindgen, near_sdk collections and Borsh written from the published libraries; Borsh's UTF-8 check, gas, log lines and migrate not in this model; the views are not on bytes; a hash collision is excluded by hypothesis; that nothing else is in the storage is not claimed, since cleared vectors and dropped maps can leave records

### C101 The voting contract from the text of a call to the bytes in storage (proved)
VoteText.v puts the JSON readers of Entry.v, a reader for the parameters of `new` and for the callbacks, and serde_json's readers of transfer messages (Json.v) in front of MVBytes.v. VoteTextSpec.v says what a text means without readers and defines the histories of the typed contract of MetaVote.v that texts make. VoteTextProofs.v shows that the readers find exactly the meanings, that texts of limited length mean calls within C100's limits (strings, lists and claims read from a text are not longer than it), and, by induction on the texts from the last one, that the account follows such a history, using C100 for each accepted call.

Theorems: `C101_calls`, `C101_determined`, `C101_records`, `C101_before_new`, `C101_reached`. near_bindgen, near_sdk collections and Borsh written from the published libraries; the views and migrate are not among the methods of this account (it refuses them, the code answers views without changing the storage); Borsh's UTF-8 check, gas and log lines are not in this model; a hash collision is excluded by hypothesis

### C102 The views of the voting contract on the bytes in storage (proved)
MVAsk.v writes each view as its reads: the root record, entries of maps by key, keys and values by index, positions by index, and the maps inside a voter or a tally found by their stored prefixes. MVAskProofs.v shows that under the representation of C100 each read gives what the state of MetaVote.v holds, so that each view agrees with its definition in MVView.v, and joins this with C96 for the texts of question and answer. The representation is taken over the names of the history and the voter asked about, so that absent voters are covered. MVAskText.v carries it over to the account of C101, whose history is one of texts (C102_account).

Theorems: `C102_views`, `C102_questions`, `C102_answers`, `C102_before_new`, `C102_account`. near_sdk collections and Borsh written from the published libraries; an iterator is modelled as reading all keys before the values (same answer or panic); view gas limits and the texts of panics are not in this model; a hash collision is excluded by hypothesis

### C103 The upgrade of the voting contract on the bytes in storage, and what follows it (proved)
MVUpgrade.v lifts `migrate` of Migrate.v to the storage: it reads and writes the key STATE. MVUpgradeSpec.v writes down the old record field by field and the state without filters. MVUpgradeProofs.v shows that the result is again in the representation of C100, for the state without filters; the simulation of C100 and the views of C102 then go on from there. For histories without filters the two records are equal by an induction on the history. The old record does not decode as the new struct and the new one not as the old struct, because of the 11 or more bytes that end it. MVUpgradeText.v carries it over to the account of C101 (C103_account).

Theorems: `C103_upgrade`, `C103_seamless`, `C103_before`, `C103_only_self`, `C103_before_new`, `C103_account`. the code of the version before is not in /repo: its storage is taken to be that of the present version but for the STATE record, as migrate.rs assumes by keeping every collection; near_sdk and Borsh written from the published libraries; a hash collision is excluded by hypothesis
