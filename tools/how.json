{
"C01": "MetaVote.v + UMap.v (records of both per-voter nested maps). `Inv` (MVInv.v): for every voter the nested records represent a list of addresses with lists of objects (weak form, stale index records allowed), and available + used <= locked power. Induction over the history (`run_inv`). Collision freedom of voter-address names is a hypothesis on the calls only.",
"C02": "Same invariant, second component: `total_vp` is the sum over the voter map (MVTotals.v). The `saturating_sub` of the code is shown never to saturate.",
"C03": "Strong mode of `Inv` (no stale index records, no zero entries): the tally of every (address, object) is the sum over voters of what the views report.",
"C04": "`Inv` with a deficit map: in histories where every unlock names a locked position the deficit is zero.",
"C05": "Case analysis of every operation (`exec_cases`, MVMoney.v) on balances + positions + unclaimed, with the token flow read from the call and its effects.",
"C06": "World.v: token ledgers, meta-vote and a bag of receipts, any schedule, any receipt may fail. Invariant ledger(self) + mirrored imports >= owed + in flight (WorldProofs.v).",
"C07": "Exact effect of `after_transfer_mpdao_callback` in both outcomes; authority of the callback; amount taken by the withdrawal that scheduled it.",
"C08": "Potential `liquid by T` per voter (MVTime.v), induction over histories with non-decreasing time; bounded by what was liquid before plus late credits.",
"C09": "Exact effect of relock_position and relock_partial_position on all positions of the voter (MVRelock.v), date comparison from it.",
"C10": "Arithmetic of `calculate_voting_power` against the rational formula, written with division in the specification only.",
"C11": "Invariant over positions (MVPos.v, `allv`).",
"C12": "Invariant `allv` on the number of positions; import and mirror included.",
"C13": "`Inv`: number of addresses per voter; the off-by-one of the check in the code is the refutation.",
"C14": "Invariant `allv`: locked positions have pairwise different periods.",
"C15": "Step theorem on the growth of positions, invariant for < 3600, history theorem for a quiet configuration.",
"C16": "Invariant of the two claim maps (MVClaims.v).",
"C17": "List induction on the distribution loop; both directions (accepted iff the exact sum).",
"C18": "Ghost sums over the history (`run_sum`), per account.",
"C19": "Forward execution of claim_and_lock for a registered voter under explicit bounds; refuted for others.",
"C20": "Case analysis of all operations, on a projection of the state to its configuration.",
"C21": "Frame theorem over `call_target` from the strong invariant (MVFrame.v, MVIso.v).",
"C22": "Invariant of the two delegation maps (MVDeleg.v).",
"C23": "Exact effect of the delegated calls with a frame.",
"C24": "History theorem on the last pre-delegation and its confirmation; step theorems listing the calls that change a delegate.",
"C25": "Guards of the removing calls in every state; monotonicity of votes for every other call from the strong invariant.",
"C26": "Exact effect of withdraw_all against get_balance.",
"C27": "Pure list theorems over the three flags.",
"C28": "Sort-descending and swap-remove loop shown to remove exactly the unlocked requested indexes (MVClear.v).",
"C29": "Strong invariant gives success of unvote; refutation uses a stale record left by a zero vote.",
"C30": "Exact effect of the voting calls (MVVoteEff.v) with the frame `only_vote_changed`.",
"C31": "Loop theorem on the mirror (MVMirror.v): the votes that go are those of an independent rule; totality by the measure of remaining votes.",
"C32": "Refuted by a four-call history; exact effect proved.",
"C33": "Migrate.v: Borsh codec of the old and new STATE records, decode(encode) = id with any suffix, migrate() on bytes.",
"C34": "Pages of `map_page` over index ranges; concatenation of pages is the listing, NoDup from the map invariants.",
"C35": "Collections.v: refinement of any number of storage-level maps to finite maps by induction over operation lists; order law for swap-remove.",
"C36": "Exact effect and frame over all operations.",
"C37": "Characterisation of every accepted ft_on_transfer call; JSON decoder is an arbitrary function of the message.",
"C38": "Mpip.v world (state + callbacks in flight). Invariant of tallies against records with at most one vote in flight per voter and proposal; inequality without the proviso; refutation by two votes in flight.",
"C39": "Forward execution from the tally invariant.",
"C40": "Invariant of the two record maps (MpipInv.v).",
"C41": "Invariant of the proposal map: ids are 0..n-1 in order.",
"C42": "Monotonicity of the two flags over continuations (MpipLife.v).",
"C43": "Step theorem for the executed flag.",
"C44": "Forward execution at the end millisecond; after it `process` cannot execute in any continuation.",
"C45": "Guards of the calls; origin of every vote callback (`pend_origin`).",
"C46": "Exact effect of the vote callback on the record.",
"C47": "Step theorem on roles and settings in terms of the signer; refuted for the predecessor by a relaying contract.",
"C48": "Arithmetic of quorum and bound of the floor as an invariant.",
"C49": "Invariant with at most one start in flight; two refutations.",
"C50": "Invariant relating time and flags over sorted histories.",
"C51": "Step theorem on contents.",
"C52": "Origin of the callback and exact effect of creation; refuted for the identity of the creator.",
"C53": "KV.v at record level, refinement to a finite map by induction over calls.",
"C54": "Token.v ledger: sum of balances = supply, by induction over calls including private resolves.",
"C55": "As C05 for stNEAR.",
"C56": "As C06 for stNEAR.",
"C57": "From any reachable state and any account a list of further calls is constructed (unvote all, unlock all, withdraw_all) and shown to succeed; the deficit component of `Inv` shows when it cannot.",
"C58": "From C05 and the guards of the two importing calls.",
"C59": "Step theorems on locked amounts; invariant that no position is empty.",
"C60": "Step theorem on `voter_ids` for every operation.",
"C61": "Invariant of the three delegation maps.",
"C62": "Specification relation `reported` over the public data; the view is shown to be its unique solution.",
"C63": "Pages of get_proposals against the list of proposals by id.",
"C64": "Step theorem on start/end dates.",
"C65": "Gov.v: both contracts composed, three separate moments for call, view and callback. Projection lemma from the composed run to the Mpip world and to the meta-vote run.",
"C66": "Composed model: for every token locked at the moment of a counted vote, a second counted vote needs an unlock and a full unbonding in between; contradiction with the window by time arithmetic (GovProofs.v).",
"C67": "Insertion sort is shown to be a sorted permutation; the nested maps are related to the abstract votes by the representation relations of MVVotes.v, which hold in every reachable state (MVVoteViews.v).",
"C68": "Borsh keys are byte strings; injectivity from fixed lengths and decoding. Operations on raw bytes in one gmap of strings simulate the cells of UMap.v, one collection at a time, with a frame for all others (FlatProofs.v).",
"C69": "Case analysis over all calls for the deposits, sums over the history by induction; for proposals the invariant that proposals plus pending creations never exceed the accepted creations (Near.v). Refutations by witnesses.",
"C70": "Each call's conditions and role changes are a table over the views; both directions by case analysis under the ledger invariant of C54 and duplicate-freedom of the minters, the history of minters by induction from the right (TokenRoles.v). `C70_notified`: the list of promises of every accepted call is computed and compared.",
"C71": "Condition `allowed` (MVSpecAccept.v), by cases over the calls, written over views only. MVAccept*.v: in a reachable state every step of an allowed call returns a value or one of the four panics of additions, multiplications and casts (`too_big`; a subtraction below zero is not among them); conversely the conditions are read off a successful call. Facts used about reachable states: votes exactly represented, tallies equal to the sums of votes, at most 255 positions, periods below 3600 days. `C71_no_tokens`: total votes plus free power are at most the total voting power, which fits in 128 bits.",
"C72": "MVSpecStep.v is the specification: a record of plain functions (`ledger`), `observe` reading it off the views, `enabled`, `next`/`becomes` (for mirroring a relation, since any order of dropping is allowed) and `pays`, using none of the model's functions. MVStep.v-MVStep7.v prove per call that the model's step commutes with `observe` (from the invariant of MVInv.v and the inversion lemmas of MVCases.v) and that `enabled` over the ledger is the `allowed` of C71. MVStep8.v shows that the specification respects equality of ledgers, hence C72_no_hidden_state.",
"C73": "MpipSpecStep.v is the specification on plain functions: `observe` reads the board off the views (settings without a view off the state), `may`, `asks`, `after`, `says`, `accepts`, `done`, `moves`; none of the model's functions. MpipStep.v and MpipStep2.v prove both directions for every call and callback, from the invariants of C38-C41 (records agree, ids dense) and a new one (a started proposal has an end and a quorum), so no unwrap can fail. Not on the board: the order in which a proposal's votes are listed.",
"C74": "MVSpecViews.v gives, for each view, its answer as a relation to the ledger of MVSpecStep.v (no model function is used but the views themselves); MVViews.v derives it from the storage invariants of C01-C04, C16, C22, C34 and C67. Together with C72 this determines the answer of every view after every history. Sums are exact or the view panics ([is128]). The order of the listings is left open, except that pages are consecutive slices of one list. Zero-power votes are excluded because of C67_zero_vote_refuted.",
"C75": "MpipSpecViews.v gives each view's answer as a relation to the board of MpipSpecStep.v; state_at lists the condition of each state, and since get_proposal_state is characterised by an equivalence the conditions are exclusive and, where the view does not panic, exhaustive. MpipViews.v derives it from the invariants of C38-C42, C62-C63. Together with C73 this determines the answer of every view after every history.",
"C76": "MVSpecFits.v lists, over the ledger of C72, the numbers that must fit (`fits`) and defines `leads`, the histories of the specification. MVFits.v-MVFits3.v show per call that the model's step has no overflow panic when they fit (`nf`), using the invariant that all totals shown are already below 2^128 and dominate their parts, and conversely that an accepted call makes them fit. MVFits4.v chains C72 and C76_accepted along a history, and shows that `leads` is functional.",
"C77": "MVSmall.v bounds the drift of a position's power from amount·10^18·days/60 by the length of the history and concludes power <= 60·10^18·amount for days < 3600; summed over all voters the total power is bounded by the tokens locked (`total_lean`, `total_slack`), and these with the balances and claims by `mp_owed`. MVSmall2.v then discharges every number of C76's `fits` for an enabled call. WorldHeard.v lists the calls the contract hears in the world of World.v; WorldSmall.v shows that what is owed plus what the call brings is in the contract's token balance or in flight (the invariant behind C06), hence at most the supply.",
"C78": "MVBatch.v: chains of accepted single calls as an inductive relation; collecting one index saves the voter once, and saving twice is saving the last (ordered maps keep positions), so the chain of single calls is the fold of the model over the sorted list; the final removal of an emptied voter commutes with the saves. MVBatch2.v does the same for migration and, generically in the token, for rewards (the all-time counter is added to once per item instead of once). MVBatch3.v unpacks a whole history.",
"C79": "MVSpecPrivate names the account of a call; MVPrivate shows on the specification of C72 that such a call reads and writes that account, the settings and the delegations only (aside_next, local_next, local_enabled); MVPrivate2 lifts it to the model with C72 and C77 by induction over the sequence, and shows that totals and tallies are determined by the accounts (C02, C03, C16).",
"C80": "MVLog.v models each log! statement as a function of the state before the call and the text it prints; MVSpecLog.v is the reader of the log, independent of the contract. The replay theorem is by induction over the history, from the step theorems of C73 (which tell what each call does to the votes) and, for mirroring, an induction over the loop that drops votes. Distinctness of texts: the words of a text are recovered by splitting at spaces; the object id, which may hold anything, is what remains between fixed parts. The lines about positions are read against the shown positions before and after, from the step theorem of C72.",
"C81": "TokenLog.v models each event and log line as a function of the state before the call. A reader with one signed number per account and one for the supply is specified beside it. Induction over the history from the exact effect of every call (C54).",
"C82": "WorldLog.v gives the lines written in every event of World.v. Two quantities change by the same amount in every event (said to be sent + waiting + lost, and moved); a third inequality for deposits; induction over events with the invariant of C06. The tokens' part lifts C81.",
"C83": "MVBooks.v: the invariant J (sum of all tallies + sum of all available power <= total_vp, no duplicate keys) is kept by every call without any proviso; the mirror call moves exactly what its loop removes from the tallies. MVCover.v: the exact equality under collision_free and no_zero_votes by double counting (C67 lists of each voter against C03 tallies), and the bound by locked mpDAO from the bound of every position's power. WorldCover.v joins this with the solvency theorem of the world (C06).",
"C84": "WorldExact.v: for every event the change of (owed + in flight) and the change of the contract's balance differ by exactly `given` + `stranded`; built from the exact conservation equations of every call (C05, C55) and of every token call (C54), with solvency (C06, C56) to show that refunds and restorations are never cut short. Induction over the events from the end. Pending deposits never come from the contract itself (invariant `senders`).",
"C85": "WorldSafe.v: `owns` adds the wallet, the books and the account's own pending receipts; per call `mv_safe` compares the books before and after with the effects (from the case analysis of all calls, `vchg_owe`, and the claims ledger), per receipt `pay_safe`, `back_safe`, `resolve_safe`, `deliver_safe`; solvency (C06/C56) makes the putting back of a failed transfer succeed. Induction over the history. Refuted without the two exceptions.",
"C86": "TokenNear.v models the NEAR transfers of storage_deposit and storage_unregister beside Token.v (`t_near_out`); `near_step` proves the equation for each call by case analysis, with the number of registered accounts as a sum over the map; induction over the history.",
"C87": "World.v with `heard` (the calls the contract sees). C57's constructed exit is carried to the world; the transfer's receipt is shown to succeed by the solvency invariant (C06); the bound of owned amounts by 2^128 follows from it, too.",
"C88": "An invariant on the model's state gives every field, every map value and every storage cell of the votes its range, kept by every call (MVSized.v); unlocking times are below 2^64/10^6 because the block time is a u64 of nanoseconds. Stated on the ledger of C72. The model's numbers are unbounded naturals with explicit panics, so this also shows that the model leaves no silent overflow out. Examples: a run through most calls; the bounds themselves reached, and the call that would pass one refused.",
"C89": "An invariant on the model's state gives every field and every map entry its range, kept by every call and every callback; questions in flight carry ids of existing proposals (MpipSized.v). Stated on the board of C73. Examples: a run whose tally reaches 2^128-1; bounds reached, and the vote, the voting period, the total and the answer that would pass one refused.",
"C90": "Json.v models serde_json (de.rs, read.rs, ser.rs of the published library, whose source is not in /repo) on the two types as a recursive-descent reader; JsonSpec.v gives a grammar relating texts and values, with its own hexadecimal, UTF-8 and decimal definitions. Soundness and completeness are proved part by part: white space, bytes, hexadecimal, UTF-8 encoding against its decoding equations, string contents by induction on the text and on the grammar, numbers, pairs, lists with fuel (JsonProofs.v). Examples: a text using every construct; texts refused for each reason.",
"C91": "MVSpecMsg.v defines the meanings of a text by the grammar of C90 and decimal numbers, when the ledger of C72 allows each and what it becomes. With the readers of the model instantiated by the serde_json model of C90, its conditions are shown equivalent to those of C72 and C76 (MVMsg.v); the slicing conditions of the code (bytes 1 and 11) are shown to hold by themselves except for deposits for another account. Examples: the three forms in one history; a well-formed message with a non-ASCII name that the code refuses because it cuts it in the middle of a character.",
"C92": "Sys.v joins World.v and Gov.v on the state of the voting contract; SysProofs.v projects every history to one of Gov.v (the calls that the voting contract hears) and one of World.v. The freezing argument of C66 (`backed`) gives the tokens behind each vote, the position bound of C77/C83 turns them into power, solvency (C06) into the token ledger, C38 the tallies, C65 the quorum.",
"C93": "Wire.v models serde_json for derived types; WireProofs.v proves the round trip by induction on types and values, and that near-sdk's account id check accepts exactly the pattern of WireSpec.v. Post.v models the four contracts passing texts. PostSpec.v gives the exact texts independently (templates) and says when a receipt is the text of a value in flight in Sys.v. PostProofs.v proves a simulation by induction over histories: sizes of all numbers from C88, account ids from the callers. Sys.v is then no simplification as far as encoding goes.",
"C94": "Entry.v lists for every state-changing public method the names and types of its parameters and reads the text with the JSON reader of Wire.v (white space, escapes, any order, ignored members, arrays for records, optional members left out). EntrySpec.v writes the plain text, the declared parameters and the types of each call by hand, independently of the tables, and defines what it is for a text to mean a call (mv_means, tok_means, board_means, kv_means): the theorems are equivalences between the reader and the meaning. Soundness: whatever the reader accepts has the type (read_has, by induction over the depth of the type) and says the same as the plain text (read_args_says, json_obj). The system part, stated with the meanings, extends the simulation of C93 by the calls read from texts.",
"C95": "MpipSpecOrder names the voter of an event and the board of C73 up to the order of questions of different voters. MpipOrder shows on the specification of C73 that an event reads only its voter's ballots and questions and the proposals, and adds to or takes from the tallies (step_yields, yields_local, yields_fun); events of different voters commute (swap), an event moves before those of others (to_front), induction over the sequence gives the reordering; C73 lifts it to the model.",
"C96": "Ask.v: tables of view methods (names, declared parameter types) and answers as JSON values, written by Wire.v; AskSpec.v: questions, parameter types, reply texts by hand (obj, arr, quote, big), declared result types, what is the same. AskProofs.v: every row read (reading gives typed values and determines the text up to what json reads), every reply equals the written value. AskMv.v/AskBoard.v/AskRest.v: values have the declared types (sizes from C88/C89; new invariants: creators, voters, token owner and minters are account ids), values are injective, json_ok.",
"C97": "`KVBytes.v` is the contract with the code near_bindgen generates, Borsh and UnorderedMap on a map from byte strings to byte strings. `KVBytesSpec.v` gives the book: `accepts` says which texts mean which call (through `reads_as`, not the reader), who may call and what is returned; `history` runs it. Induction over the calls with a representation relation: the decoded STATE record, the flat cells of C68 refined by the list of entries, and the footprint of keys (`KVBytesProofs.v`).",
"C98": "TokBytes.v: near_bindgen, Borsh, LookupMap, LazyOption and FungibleToken on raw storage. Each function is shown to do on the bytes what the function of Token.v does on the ledger (relation `Acc`: every account's record, the metadata record and no other key); the readers are tied to the texts by the `*_means` relations of C94; histories by induction from the right (TokBytesProofs.v).",
"C99": "BoardBytes.v: near_bindgen, Borsh and UnorderedMap with nested maps on raw storage. BoardMaps.v relates one map to a list, with the keys of other maps apart; BoardStore.v relates the storage to the state of Mpip.v (relation `Maps`: four maps, and two families of inner maps) and shows that each read and write on bytes does what it does on the lists; BoardSim.v does so for each method and callback; BoardText.v ties the readers to the texts; ReadLen.v shows that what is read is no bigger than the text; the relation also says that every key present belongs to one of the maps and to an entry of it; histories by induction from the right (BoardBytesProofs.v).",
"C100": "MVBytes.v models the contract again on a finite map from storage keys to bytes: every method loads what it reads, decodes it with the Borsh readers, and writes back what the Rust code writes, with near_sdk's UnorderedMap, LookupMap and Vector on raw keys. MVStore.v says when bytes stand for a state of MetaVote.v (one clause per storage prefix, the prefixes kept apart by the hash); MVCells.v, MVRep.v, MVSim.v, MVPositions.v, MVBallots.v and MVMethods.v show for each of the 36 operations that the two models accept the same calls, send the same transfers and stay in that relation; MVBytesProofs.v carries it over histories and reads off the bytes. The layouts of the records are written down separately in MVBytesSpec.v.",
"C101": "VoteText.v puts the JSON readers of Entry.v, a reader for the parameters of `new` and for the callbacks, and serde_json's readers of transfer messages (Json.v) in front of MVBytes.v. VoteTextSpec.v says what a text means without readers and defines the histories of the typed contract of MetaVote.v that texts make. VoteTextProofs.v shows that the readers find exactly the meanings, that texts of limited length mean calls within C100's limits (strings, lists and claims read from a text are not longer than it), and, by induction on the texts from the last one, that the account follows such a history, using C100 for each accepted call.",
"C102": "MVAsk.v writes each view as its reads: the root record, entries of maps by key, keys and values by index, positions by index, and the maps inside a voter or a tally found by their stored prefixes. MVAskProofs.v shows that under the representation of C100 each read gives what the state of MetaVote.v holds, so that each view agrees with its definition in MVView.v, and joins this with C96 for the texts of question and answer. The representation is taken over the names of the history and the voter asked about, so that absent voters are covered. MVAskText.v carries it over to the account of C101, whose history is one of texts (C102_account).",
"C103": "MVUpgrade.v lifts `migrate` of Migrate.v to the storage: it reads and writes the key STATE. MVUpgradeSpec.v writes down the old record field by field and the state without filters. MVUpgradeProofs.v shows that the result is again in the representation of C100, for the state without filters; the simulation of C100 and the views of C102 then go on from there. For histories without filters the two records are equal by an induction on the history. The old record does not decode as the new struct and the new one not as the old struct, because of the 11 or more bytes that end it. MVUpgradeText.v carries it over to the account of C101 (C103_account)."
}