(** Ask.v -- the views of the four contracts as they are asked and answered: the name of a method and the JSON text of its arguments
    go in, the JSON text of the result comes out.

    Like Entry.v for the methods that change something; near_bindgen writes the result with serde_json::to_vec.  The values are those
    of MVView.v, Mpip.v, Token.v, TokenNear.v and KV.v.  Not listed: assert_minter of the token, which has no result, and ft_metadata
    (token metadata is not modelled). *)

From Verif Require Export Entry MVView TokenNear.
Import World.

Definition ask {Q} (views : list (string * method Q)) (answer : Q -> res val) (m a : string) : res string :=
  q ← expect (enter views m a) "Failed to deserialize input from JSON.";
  v ← answer q;
  Ok (write v).

Notation U8 := (TNum U8_SIZE).
Definition opt {A} (f : A -> val) (o : option A) : val := match o with Some x => VSome (f x) | None => VNone end.
Definition items {A} (f : A -> val) (l : list A) : val := VList (map f l).
Definition count (n : nat) : val := VNum (N.of_nat n).
Definition pair_val {A B} (f : A -> val) (g : B -> val) (p : A * B) : val := VList [f p.1; g p.2].

(** ** meta-vote-contract/src: view.rs, lib.rs, evm_delegate.rs *)
Inductive mvq :=
| QOwner | QOperator | QInfo | QVotersCount | QTotalPower
| QVoter (v : string) | QVoters (from limit : N) | QBalance (v : string)
| QClaimMp (v : string) | QClaimSt (v : string) | QStClaims (from limit : N) | QClaims (from limit : N)
| QLocked (v : string) | QUnlocking (v : string) | QAvailable (v : string) | QUsed (v : string)
| QPeriod | QPositions (v : string) | QPosition (i : N) (v : string)
| QTotalVotes (addr obj : string) | QByApp (addr : string) | QByContract (addr : string) | QByVoter (v : string)
| QForObject (v addr obj : string) | QUnclaimed | QAccumulated
| QRegCost | QRegistered (a : string) | QAirdrop (a : string) | QAirdrops (from limit : N) | QHold
| QPre (evm : string) | QDelegating (a : string) | QDelegates (from limit : N) | QDelegate (evm : string) | QSignature (evm : string).

Definition ask0 {Q} (q : Q) : method Q := ([], fun l => match l with [] => Some q | _ => None end).
Definition ask_s {Q} (n : string) (q : string -> Q) : method Q := ([(n, TStr)], fun l => match l with [VStr a] => Some (q a) | _ => None end).
Definition ask_a {Q} (n : string) (q : string -> Q) : method Q := ([(n, TAcc)], fun l => match l with [VStr a] => Some (q a) | _ => None end).
Definition ask_n {Q} (n : string) (q : N -> Q) : method Q := ([(n, U32)], fun l => match l with [VNum i] => Some (q i) | _ => None end).
Definition ask_page {Q} (q : N -> N -> Q) : method Q :=
  ([("from_index", U32); ("limit", U32)], fun l => match l with [VNum i; VNum j] => Some (q i j) | _ => None end).
Definition mv_views : list (string * method mvq) := [
  (* view.rs:34, 37, 41, 63, 67 *)
  ("get_owner_id", ask0 QOwner); ("get_operator_id", ask0 QOperator); ("get_contract_info", ask0 QInfo);
  ("get_voters_count", ask0 QVotersCount); ("get_total_voting_power", ask0 QTotalPower);
  (* view.rs:72, 87, 102 *)
  ("get_voter_info", ask_s "voter_id" QVoter); ("get_voters", ask_page QVoters); ("get_balance", ask_s "voter_id" QBalance);
  (* view.rs:108, 115, 119 *)
  ("get_claimable_mpdao", ask_s "voter_id" QClaimMp); ("get_claimable_meta", ask_s "voter_id" QClaimMp); ("get_claimable_stnear", ask_s "voter_id" QClaimSt);
  (* view.rs:146, 151 *)
  ("get_stnear_claims", ask_page QStClaims); ("get_claims", ask_page QClaims);
  (* view.rs:155, 160, 165, 170, 175 *)
  ("get_locked_balance", ask_s "voter_id" QLocked); ("get_unlocking_balance", ask_s "voter_id" QUnlocking);
  ("get_available_voting_power", ask_s "voter_id" QAvailable); ("get_used_voting_power", ask_s "voter_id" QUsed);
  ("get_locking_period", ask0 QPeriod);
  (* view.rs:180, 193 *)
  ("get_all_locking_positions", ask_s "voter_id" QPositions);
  ("get_locking_position", ([("index", U64); ("voter_id", TStr)], fun l => match l with [VNum i; VStr v] => Some (QPosition i v) | _ => None end));
  (* view.rs:206 *)
  ("get_total_votes", ([("contract_address", TStr); ("votable_object_id", TStr)],
    fun l => match l with [VStr a; VStr o] => Some (QTotalVotes a o) | _ => None end));
  (* view.rs:220, 234, 255 *)
  ("get_votes_by_app", ask_s "app_or_contract_address" QByApp); ("get_votes_by_contract", ask_s "contract_address" QByContract);
  ("get_votes_by_voter", ask_s "voter_id" QByVoter);
  (* view.rs:272 *)
  ("get_votes_for_object", ([("voter_id", TStr); ("contract_address", TStr); ("votable_object_id", TStr)],
    fun l => match l with [VStr v; VStr a; VStr o] => Some (QForObject v a o) | _ => None end));
  (* view.rs:287, 291, 295, 299 *)
  ("get_total_unclaimed_mpdao", ask0 QUnclaimed); ("get_total_unclaimed_meta", ask0 QUnclaimed);
  ("get_accumulated_mpdao_distributed_for_claims", ask0 QAccumulated); ("get_accumulated_distributed_for_claims", ask0 QAccumulated);
  (* lib.rs:153, 157, 161, 177, 189, 768 *)
  ("get_registration_cost", ask0 QRegCost); ("check_if_registered_for_airdrops", ask_s "account_id" QRegistered);
  ("check_if_user_is_registerd", ask_s "account_id" QRegistered); ("get_airdrop_account", ask_s "account_id" QAirdrop);
  ("get_airdrop_accounts", ask_page QAirdrops); ("get_lock_in_vote_filters", ask0 QHold);
  (* evm_delegate.rs:25, 170, 178, 199, 210 *)
  ("get_pre_delegate_evm_address", ask_s "evm_address" QPre); ("get_delegating_evm_addresses", ask_a "account_id" QDelegating);
  ("get_delegates", ask_page QDelegates); ("get_delegate", ask_s "evm_address" QDelegate);
  ("get_delegation_signature", ask_s "evm_address" QSignature) ].

(** types.rs:44-50 *)
Definition vote_val (t : string * string * N) : val :=
  VRec [("votable_address", VStr t.1.1); ("votable_object_id", VStr t.1.2); ("voting_power", VBig t.2)].
(** types.rs:36-42 *)
Definition object_val (t : string * string * N) : val :=
  VRec [("votable_contract", VStr t.1.1); ("id", VStr t.1.2); ("current_votes", VBig t.2)].
(** voter.rs:5-13 *)
Definition voter_val (j : voter_json) : val :=
  VRec [("voter_id", VStr (vj_id j)); ("balance_in_contract", VBig (vj_balance j)); ("locking_positions", items pos_val (vj_lps j));
        ("voting_power", VBig (vj_avail j)); ("vote_positions", items vote_val (vj_votes j))].
(** view.rs:10-30 *)
Definition info_val (i : contract_info) : val :=
  VRec [("owner_id", VStr (ci_owner i)); ("operator_id", VStr (ci_operator i)); ("voter_count", count (ci_voter_count i));
        ("min_unbond_period", VNum (ci_min_unbond i)); ("max_unbond_period", VNum (ci_max_unbond i)); ("min_deposit_amount", VBig (ci_min_deposit i));
        ("max_locking_positions", VNum (ci_max_lps i)); ("max_voting_positions", VNum (ci_max_vps i));
        ("mpdao_token_contract_address", VStr (ci_mpdao i)); ("stnear_token_contract_address", VStr (ci_stnear i));
        ("registration_cost", VBig (ci_reg_cost i)); ("prev_governance_contract", VStr (ci_prev_gov i));
        ("accumulated_mpdao_distributed_for_claims", VBig (ci_accum_mp i)); ("total_unclaimed_mpdao", VBig (ci_uncl_mp i));
        ("accum_distributed_stnear_for_claims", VBig (ci_accum_st i)); ("total_unclaimed_stnear", VBig (ci_uncl_st i));
        ("evm_delegates_count", count (ci_delegates i))].
Definition amounts : list (string * N) -> val := items (pair_val VStr VBig).
Definition texts : list (string * string) -> val := items (pair_val VStr VStr).
Definition page {A} (f : A -> val) (r : nat -> nat -> res A) (from limit : N) : res val := x ← r (N.to_nat from) (N.to_nat limit); Ok (f x).
Definition in_big (r : res N) : res val := n ← r; Ok (VBig n).
(** at the lines of the table; [now]: milliseconds *)
Definition mv_answer (now : N) (s : state) (q : mvq) : res val :=
  match q with
  | QOwner => Ok (VStr (get_owner_id s))
  | QOperator => Ok (VStr (get_operator_id s))
  | QInfo => Ok (info_val (get_contract_info s))
  | QVotersCount => Ok (VBig (N.of_nat (get_voters_count s)))
  | QTotalPower => Ok (VBig (get_total_voting_power s))
  | QVoter v => j ← get_voter_info now s v; Ok (voter_val j)
  | QVoters i j => page (items voter_val) (get_voters now s) i j
  | QBalance v => in_big (get_balance now s v)
  | QClaimMp v => Ok (VBig (get_claimable_mpdao s v))
  | QClaimSt v => Ok (VBig (get_claimable_stnear s v))
  | QStClaims i j => page amounts (get_stnear_claims s) i j
  | QClaims i j => page amounts (get_claims s) i j
  | QLocked v => in_big (get_locked_balance s v)
  | QUnlocking v => in_big (get_unlocking_balance now s v)
  | QAvailable v => Ok (VBig (get_available_voting_power s v))
  | QUsed v => in_big (get_used_voting_power s v)
  | QPeriod => Ok (pair_val VNum VNum (get_locking_period s))
  | QPositions v => Ok (items pos_val (get_all_locking_positions now s v))
  | QPosition i v => Ok (opt pos_val (get_locking_position now s (N.to_nat i) v))
  | QTotalVotes a o => Ok (VBig (get_total_votes s a o))
  | QByApp a => Ok (amounts (get_votes_by_app s a))
  | QByContract a => Ok (items object_val (get_votes_by_contract s a))
  | QByVoter v => l ← get_votes_by_voter s v; Ok (items object_val l)
  | QForObject v a o => in_big (get_votes_for_object s v a o)
  | QUnclaimed => Ok (VBig (get_total_unclaimed_mpdao s))
  | QAccumulated => Ok (VBig (get_accumulated_mpdao s))
  | QRegCost => Ok (VBig (get_registration_cost s))
  | QRegistered a => Ok (VBool (check_if_registered s a))
  | QAirdrop a => d ← get_airdrop_account s a; Ok (VStr d)
  | QAirdrops i j => page texts (get_airdrop_accounts s) i j
  | QHold => let '(t, a, i) := get_lock_in_vote_filters s in Ok (VList [VNum t; opt VStr a; VNum i])
  | QPre e => Ok (opt (pair_val VStr VStr) (get_pre_delegate s e))
  | QDelegating a => Ok (items VStr (get_delegating_evm_addresses s a))
  | QDelegates i j => page (items (pair_val VStr (items VStr))) (get_delegates s) i j
  | QDelegate e => Ok (opt VStr (get_delegate s e))
  | QSignature e => p ← get_delegation_signature s e; Ok (pair_val VStr VStr p)
  end.
Definition mv_view (now : N) (s : state) : string -> string -> res string := ask mv_views (mv_answer now s).

(** ** mpip-contract/src/lib.rs *)
Inductive boardq :=
| BMine (a : string) | BEnough (power : N) | BFee | BVotes (id : N) | BReached (id : N) | BSucceeded (id : N) | BState (id : N)
| BProposal (id : N) | BProposals (from limit : N) | BIds (a : string) | BLast | BFloor | BThreshold | BTotalVoters
| BActive (id : N) | BVoted (voter : string) (id : N) | BMyVote (voter : string) (id : N) | BVoter (voter : string).
Definition board_views : list (string * method boardq) := [
  (* lib.rs:278, 288, 292, 296, 301, 307, 312 *)
  ("get_my_proposals", ask_a "proposer_id" BMine);
  ("check_proposal_threshold", ([("voting_power", U128)], fun l => match l with [VBig n] => Some (BEnough n) | _ => None end));
  ("get_mpip_storage_near", ask0 BFee); ("get_proposal_votes", ask_n "mpip_id" BVotes); ("get_quorum_reached", ask_n "mpip_id" BReached);
  ("get_proposal_vote_succeeded", ask_n "mpip_id" BSucceeded); ("get_proposal_state", ask_n "mpip_id" BState);
  (* lib.rs:316, 321, 340, 344, 352, 356, 360, 364 *)
  ("get_proposal", ask_n "mpip_id" BProposal); ("get_proposals", ask_page BProposals); ("get_user_proposals_ids", ask_a "proposer_id" BIds);
  ("get_last_proposal_id", ask0 BLast); ("get_quorum_floor", ask0 BFloor); ("get_proposal_threshold", ask0 BThreshold);
  ("get_total_voters", ask0 BTotalVoters); ("get_proposal_is_active_or_draft", ask_n "mpip_id" BActive);
  (* lib.rs:469, 473, 484 *)
  ("has_voted", ([("voter_id", TAcc); ("mpip_id", U32)], fun l => match l with [VStr v; VNum i] => Some (BVoted v i) | _ => None end));
  ("get_my_vote", ([("voter_id", TAcc); ("mpip_id", U32)], fun l => match l with [VStr v; VNum i] => Some (BMyVote v i) | _ => None end));
  ("get_voter", ask_a "voter_id" BVoter) ].
(** vote.rs:7-13, 15-24, 51-60 *)
Definition vote_type_val (t : vote_type) : val := VStr match t with VAgainst => "Against" | VFor => "For" | VAbstain => "Abstain" end.
Definition ballot_val (j : vote_json) : val :=
  VRec [("mpip_id", VNum (vt_mpip j.2)); ("voter_id", VStr j.1); ("vote_type", vote_type_val (vt_type j.2)); ("voting_power", VBig (vt_power j.2));
        ("memo", VStr (vt_memo j.2))].
(** vote_counting.rs:9-16 *)
Definition votes_val (t : N * N * N * list vote_json) : val :=
  let '(for_, against, abstain, l) := t in
  VRec [("for_votes", VBig for_); ("against_votes", VBig against); ("abstain_votes", VBig abstain); ("has_voted", items ballot_val l)].
(** mpip.rs:21-38 *)
Definition proposal_val (p : mpip) : val :=
  let ct := pr_content p in
  VRec [("mpip_id", VNum (pr_id p)); ("title", VStr (ct_title ct)); ("short_description", VStr (ct_short ct)); ("body", VStr (ct_body ct));
        ("data", VStr (ct_data ct)); ("extra", VStr (ct_extra ct)); ("creator_id", VStr (pr_creator p));
        ("vote_start_timestamp", opt VNum (pr_start p)); ("vote_end_timestamp", opt VNum (pr_end p)); ("draft", VBool (pr_draft p));
        ("executed", VBool (pr_executed p)); ("canceled", VBool (pr_canceled p)); ("v_power_quorum_to_reach", opt VBig (pr_quorum p))].
(** mpip.rs:9-19 *)
Definition state_val (t : mpip_state) : val :=
  VStr match t with
       | StDraft => "Draft" | StActive => "Active" | StVotingProcess => "VotingProcess" | StAccepted => "Accepted"
       | StRejected => "Rejected" | StExecuted => "Executed" | StCanceled => "Canceled"
       end.
(** at the lines of the table; BReached also asserts the caller *)
Definition board_answer (c : ctx) (s : mstate) (q : boardq) : res val :=
  let in_bool (r : res bool) := b ← r; Ok (VBool b) in
  match q with
  | BMine a => Ok (items VNum (get_my_proposals s a))
  | BEnough n => Ok (VBool (check_proposal_threshold s n))
  | BFee => Ok (VBig (get_mpip_storage_near s))
  | BVotes i => Ok (votes_val (get_proposal_votes s i))
  | BReached i => in_bool (get_quorum_reached c s i)
  | BSucceeded i => Ok (VBool (get_proposal_vote_succeeded s i))
  | BState i => t ← get_proposal_state (now_ms c) s i; Ok (state_val t)
  | BProposal i => p ← get_proposal s i; Ok (proposal_val p)
  | BProposals i j => page (opt (items proposal_val)) (get_proposals s) i j
  | BIds a => Ok (items VNum (get_user_proposals_ids s a))
  | BLast => o ← get_last_proposal_id s; Ok (opt VNum o)
  | BFloor => Ok (VNum (get_quorum_floor s))
  | BThreshold => Ok (VBig (get_proposal_threshold s))
  | BTotalVoters => Ok (VStr (get_total_voters s))
  | BActive i => in_bool (get_proposal_is_active_or_draft (now_ms c) s i)
  | BVoted v i => Ok (VBool (has_voted s v i))
  | BMyVote v i => o ← get_my_vote s v i; Ok (opt ballot_val o)
  | BVoter v => Ok (VRec [("votes", items ballot_val (get_voter_votes s v))])
  end.
Definition board_view (c : ctx) (s : mstate) : string -> string -> res string := ask board_views (board_answer c s).

(** ** test-meta-token/src/lib.rs; StorageBalance and StorageBalanceBounds as in near-contract-standards, NearToken as U128 *)
Inductive tokq := TQOwner | TQMinters | TQSupply | TQBalance (a : string) | TQBounds | TQStorage (a : string).
Definition tok_views : list (string * method tokq) := [
  (* lib.rs:107, 141 *)
  ("get_owner_id", ask0 TQOwner); ("get_minters", ask0 TQMinters);
  (* lib.rs:197, 201, 252, 256 *)
  ("ft_total_supply", ask0 TQSupply); ("ft_balance_of", ask_a "account_id" TQBalance);
  ("storage_balance_bounds", ask0 TQBounds); ("storage_balance_of", ask_a "account_id" TQStorage) ].
Definition tok_answer (t : tstate) (q : tokq) : res val :=
  match q with
  | TQOwner => Ok (VStr (t_get_owner_id t))
  | TQMinters => Ok (items VStr (get_minters t))
  | TQSupply => Ok (VBig (ft_total_supply t))
  | TQBalance a => Ok (VBig (ft_balance_of t a))
  | TQBounds => Ok (VRec [("min", VBig (t_bounds t).1); ("max", opt VBig (t_bounds t).2)])
  | TQStorage a => Ok (opt (fun p => VRec [("total", VBig p.1); ("available", VBig p.2)]) (t_storage_balance_of t a))
  end.
Definition tok_view (t : tstate) : string -> string -> res string := ask tok_views (tok_answer t).

(** ** kv-store-contract/src/lib.rs *)
Inductive kvq := KQGet (k : string) | KQPage (from limit : N) | KQOwner | KQOperator | KQCount.
Definition kv_views : list (string * method kvq) := [
  (* lib.rs:97, 102, 120, 123, 126 *)
  ("get_value", ask_s "key" KQGet); ("get_values", ask_page KQPage); ("get_owner_id", ask0 KQOwner); ("get_operator_id", ask0 KQOperator);
  ("get_kv_count", ask0 KQCount) ].
Definition kv_answer (s : kvstate) (q : kvq) : res val :=
  match q with
  | KQGet k => o ← kv_get_value s k; Ok (opt VStr o)
  | KQPage i j => page texts (kv_get_values s) i j
  | KQOwner => Ok (VStr (kv_get_owner_id s))
  | KQOperator => Ok (VStr (kv_get_operator_id s))
  | KQCount => Ok (VBig (N.of_nat (kv_get_kv_count s)))
  end.
Definition kv_view (s : kvstate) : string -> string -> res string := ask kv_views (kv_answer s).
