{
"C01": {
"note": "Proved for every history without storage-prefix collisions (no two voter/address pairs with equal voter-address concatenation); refuted without that proviso."
},
"C02": {
"note": "Same proviso as C01; refuted without it."
},
"C04": {
"note": "Exact equation proved when every unlock names a locked position; refuted otherwise (double unlock)."
},
"C20": {
"note": "Every call, every state."
},
"C09": {
"note": "Exact effect of both re-lock calls on every stored position, balance and locked amount."
},
"C10": {
"note": "Formula, monotonicity, split loss of at most one unit and partial-unlock bound for all inputs."
},
"C11": {
"note": "Every position of every reachable state whose period is a multiple of 3 days."
},
"C12": {
"note": "Every reachable state; no proviso."
},
"C14": {
"note": "Proved for histories without extend-days; refuted with it."
},
"C15": {
"note": "Growth only inside the configured bounds; all periods below 3600; all periods in bounds when the configuration is quiet; refuted with extend-days."
},
"C26": {
"note": "withdraw_all pays exactly get_balance and leaves zero withdrawable."
},
"C27": {
"note": "Flags mutually exclusive; the three sums and the balance partition the deposits, for every state."
},
"C28": {
"note": "Exact effect of clear_locking_position and its panics."
},
"C03": {
"note": "Proved for histories without zero-power votes and without name collisions; refuted without either proviso."
},
"C13": {
"note": "max_voting_positions + 1 holds for every history; the documented bound is refuted."
},
"C21": {
"note": "Proved for every call after every history with collision-free vote targets; refuted for colliding names."
},
"C29": {
"note": "Own and delegated unvote; refuted when zero-power votes are allowed."
},
"C30": {
"note": "Exact effect of vote, rebalance, unvote and the delegated forms, with a full frame condition."
},
"C31": {
"note": "Exact effect, votes dropped in listing order by an independent rule; totality for all well-formed position lists (includes termination of the removal loop)."
},
"C05": {
"note": "Every call in every reachable state; the exact effect of the two imports is proved too."
},
"C07": {
"note": "Every state and amount at callback time (unless the balance would overflow u128)."
},
"C16": {
"note": "Every reachable state; no proviso."
},
"C17": {
"note": "Every state, list and message, in both directions."
},
"C18": {
"note": "Every history, per account."
},
"C19": {
"note": "Proved for registered voters; refuted for accounts that are not."
},
"C37": {
"note": "Every state, caller, sender, amount and message; JSON decoding of the pair is a parameter."
},
"C55": {
"note": "Every call in every reachable state."
},
"C08": {
"note": "Every history with non-decreasing time, every voter and horizon. Refunded withdrawals are added back. All credits count: deposits, locked claims, imported positions."
},
"C22": {
"note": "Every reachable state; confirming and removing never panic on internal lookups."
},
"C23": {
"note": "Every reachable state and caller; frame on all other accounts; the claim pays the delegate."
},
"C24": {
"note": "History theorem: the delegate asked and the operator confirmed that request; exact list of calls that change a delegate or a request; refuted that the reviewed request is the confirmed one."
},
"C25": {
"note": "unvote, unvote_delegated and rebalance to zero are rejected in every state; no other call lowers votes (collision-free histories without zero votes; operator mirroring excepted); refuted for rebalance to a smaller amount."
},
"C32": {
"note": "Refuted; exact effect on user data proved."
},
"C34": {
"note": "Every reachable state, every page size; get_voters for collision-free histories; get_delegates needs in-range starts because it panics otherwise."
},
"C36": {
"note": "Every state; including that no other call changes the data."
},
"C38": {
"note": "Exact for every interleaving in which nobody votes on a proposal while an own vote on it is in flight; tallies are never below the recorded sums in any interleaving; refuted without the proviso."
},
"C39": {
"note": "Every reachable state, including those where double votes made the tally exceed the records."
},
"C40": {
"note": "Every reachable state."
},
"C41": {
"note": "Every history with fewer than 2^32 proposals."
},
"C42": {
"note": "Every continuation of every history with fewer than 2^32 proposals."
},
"C43": {
"note": "Quorum half proved for every event; the for > against half is refuted."
},
"C44": {
"note": "Succeeds exactly in the end millisecond; after it the proposal stays unexecuted in every continuation (no start call in flight); the claim as stated is refuted."
},
"C45": {
"note": "Rejection of calls outside the window, and window at the time of the call for every counted vote, proved; counting at answer time inside the window is refuted."
},
"C46": {
"note": "Every answer in every reachable state."
},
"C47": {
"note": "Holds for the signer; refuted for the direct caller."
},
"C48": {
"note": "Every event in every reachable state with fewer than 2^32 proposals."
},
"C49": {
"note": "Holds with at most one start call per proposal in flight and no start call in the start millisecond; refuted otherwise."
},
"C50": {
"note": "Every history with non-decreasing time, every query time not before its last event."
},
"C51": {
"note": "Every event in every reachable state with fewer than 2^32 proposals."
},
"C52": {
"note": "Every interleaving; that the creator is the checked account is refuted."
},
"C35": {
"note": "Any number of collections, any operation sequence, at the level of the storage records; a collection is re-created only while empty (needed: see the example)."
},
"C53": {
"note": "Whole contract, map at the level of its storage records; any callers, any history."
},
"C33": {
"note": "Down to the Borsh bytes of the STATE record, for every content of the other records; a second migrate() is refused."
},
"C54": {
"note": "FungibleToken (near-contract-standards, not in /repo) is modelled from the published library; the theorem ranges over arbitrary private resolve calls, a superset of the real ones."
},
"C06": {
"note": "Composed model of meta-vote, the mpDAO token and the stNEAR token with every receipt scheduled in any order and able to fail. Shown with the stated provisos (no imports, stNEAR address not pointed to the mpDAO token); without either proviso it is refuted by a witness."
},
"C56": {
"note": "The stNEAR contract is not in /repo; its ledger is assumed to behave like the token of test-meta-token. Refuted by a witness if the owner repoints the stNEAR address."
},
"C57": {
"note": "exit theorem by appending to the history (unvote all, unlock all, withdraw_all); permanence of a shortfall by a per-account deficit in the invariant; C57_refuted exhibits an account that can never leave."
},
"C58": {
"note": "Follows from the accounting theorem of C05 and the guards of the two importing calls. The previous governance contract is the current setting (the owner can change it, C20)."
},
"C59": {
"note": "Growth of locked tokens, remainder of partial unlocks and absence of empty positions proved; the claim about the size of every locked position is refuted with a four-call history. relock_position has no minimum in the code."
},
"C60": {
"note": "Exact: who enters, who leaves and with what payment, and the condition after a withdrawal."
},
"C61": {
"note": "Invariant over the three delegation maps."
},
"C62": {
"note": "The specification `reported` is a separate relation; C62_state_unique shows it determines one state. Overflow of for + abstain is the only excluded case."
},
"C63": {
"note": "`few_proposals`: fewer than 2^32 ids, the range of the u32 id."
},
"C64": {
"note": "Shown for one step from any reachable state, hence for all histories."
},
"C65": {
"note": "Proved in the composed model Gov.v. Hypothesis `linked`: the proposal contract's registered voting contract is this one and stays so. The stronger reading (recorded power at most the current total power) is false of the code: C65_within_current_power_refuted."
},
"C66": {
"note": "Positive theorem with the proviso on periods; C66_any_voting_period_refuted shows the proviso is needed (40 day voting period, 30 day unbonding)."
},
"C67": {
"note": "Positive theorems for the account and address views; C67_zero_vote_refuted shows that without \"no vote of zero power\" the per-object view and the list can disagree."
},
"C68": {
"note": "Keys of all four contracts, and a refinement of the collections down to bytes. C68_voter_address_keys_refuted is the exception named in the statement (the collision-free hypothesis of C03, C21 and others); C68_prefixes_must_be_free_refuted shows the proviso on prefixes is needed. keccak256 is an arbitrary 32-byte function; near-sdk's key layout is trusted."
},
"C69": {
"note": "Positive statements for every call and history; four natural stronger claims are refuted by witnesses (each stNEAR claim and each query costs the contract one yoctoNEAR, delegated claims keep any deposit, a failed proposal creation keeps the deposit)."
},
"C70": {
"note": "The FungibleToken library itself is not in /repo and modelled from its published source."
},
"C71": {
"note": "Provisos: no colliding storage prefixes (C01), no zero-power votes (C03), position lists without repetitions. too_big panics remain possible only for calls that add tokens."
},
"C72": {
"note": "Refinement of a complete ledger specification, over all histories; the 128-bit proviso names the panic (too_big)."
},
"C73": {
"note": "Refinement of a complete specification with exact overflow conditions."
},
"C74": {
"note": "all views of meta-vote; hypotheses collision_free and no_zero_votes as in C72"
},
"C75": {
"note": "Vote views for every reachable state; proposal views while fewer than 2^32 proposals exist (ids are u32)."
},
"C76": {
"note": "Closes the 128-bit proviso of C72: acceptance is an equivalence; histories are refined as a whole."
},
"C77": {
"note": "Contract level (C77_accepted) with the owed tokens as the bound, and world level (C77_world) with the supply as the bound. The mirrored positions and the colliding prefixes are excluded by hypothesis."
},
"C78": {
"note": "Equality of states, not only of views. Mirroring is not a sequence of single mirrorings (each replaces all positions) and is left out."
},
"C79": {
"note": "Settings, announcing and confirming delegations, reward distributions, migration and mirroring act on more than one account and are not in the sequences."
},
"C80": {
"note": "Votes of zero and colliding storage names are excluded as in C73. That NEAR aborts calls writing over 100 lines is outside the model; the theorem only shows that the number of lines of one mirroring call is not bounded."
},
"C81": {
"note": "Which events FungibleToken emits is taken from the published near-contract-standards, whose source is not in /repo: transfers, refunds and the burn of a refund to a closed account emit one, storage_unregister none. C81_replay holds even if the library emitted no line of its own for closing, since the contract's line \"Closed @.. with ..\" is read. Memos and the JSON text are not modelled."
},
"C82": {
"note": "Excludes pointing the stNEAR address to the mpDAO token (C82_sent, C82_held) or away from stNEAR (C82_sent_stnear), which is shown necessary."
},
"C83": {
"note": "C83_never_exceeded has no proviso. C83_votes_covered gives the equality; the power part needs collision_free because mirroring with colliding names can drift a voter's power. C83_extend_refuted: extend ignores the configured maximum."
},
"C84": {
"note": "For mpDAO no mirroring/migration and the stNEAR address not pointed to the mpDAO token (`calm`, as in C06); for stNEAR the address is kept. C84_callback_refuted: with a failing callback receipt the account loses the payment."
},
"C85": {
"note": "Mirrored accounts and lost callbacks are shown to be real exceptions by the two _refuted theorems."
},
"C86": {
"note": "The fee of the owner's account, registered free of charge at deployment, can be withdrawn: C86_received_refuted."
},
"C87": {
"note": "Existence of the calls with their success and the final token balance; stNEAR claims; refuted with mirrored positions, for which the contract may hold no tokens."
},
"C88": {
"note": "Also closes the gap between the model's unbounded naturals and the Rust integers."
},
"C89": {
"note": "Counterpart of C88 for mpip-contract; the token's supply and balances are covered by C54."
},
"C90": {
"note": "The voting model itself takes the readers as arbitrary functions, so all its theorems hold for this one; C91 instantiates them."
},
"C91": {
"note": "Hash assumption as in C72; needs that no vote of zero was cast (C25)."
},
"C92": {
"note": "Positive theorems with the proviso on votes in flight; the two _refuted theorems show it is needed (the callback does not check again whether the account has voted)."
},
"C93": {
"note": "Calls from outside carry values; failed callbacks of the proposal contract are gone here and wait for ever in Sys.v (list lost)."
},
"C94": {
"note": "views, init methods and private callbacks called from outside change nothing and are not listed; migrate is C33"
},
"C95": {
"note": "Closing, starting, creating and settings are not in the sequences. C95_any_power_refuted: with answers summing to more than u128 the order matters."
},
"C96": {
"note": "Readability is proved with hypotheses that hold for what can be called: typed numbers (sized_call/sized_event), callers are account ids, fewer than 2^64 map entries."
},
"C97": {
"note": "near_bindgen, near_sdk collections and Borsh written from the published libraries; Borsh's UTF-8 check left out"
},
"C98": {
"note": "near_bindgen, near_sdk collections, near-contract-standards and Borsh written from the published libraries; Borsh's UTF-8 check left out; `new` with metadata given by the caller, gas and events not in this model"
},
"C99": {
"note": "near_bindgen, near_sdk collections and Borsh written from the published libraries; Borsh's UTF-8 check, gas and the log line not in this model; a hash collision is excluded by hypothesis"
},
"C100": {
"note": "The calls are typed; the JSON reader in front of them is C94's. near_bindgen, near_sdk collections and Borsh written from the published libraries; Borsh's UTF-8 check, gas, log lines and migrate not in this model; the views are not on bytes; a hash collision is excluded by hypothesis; that nothing else is in the storage is not claimed, since cleared vectors and dropped maps can leave records"
},
"C101": {
"note": "near_bindgen, near_sdk collections and Borsh written from the published libraries; the views and migrate are not among the methods of this account (it refuses them, the code answers views without changing the storage); Borsh's UTF-8 check, gas and log lines are not in this model; a hash collision is excluded by hypothesis"
},
"C102": {
"note": "near_sdk collections and Borsh written from the published libraries; an iterator is modelled as reading all keys before the values (same answer or panic); view gas limits and the texts of panics are not in this model; a hash collision is excluded by hypothesis"
},
"C103": {
"note": "the code of the version before is not in /repo: its storage is taken to be that of the present version but for the STATE record, as migrate.rs assumes by keeping every collection; near_sdk and Borsh written from the published libraries; a hash collision is excluded by hypothesis"
}
}