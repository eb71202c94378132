(** AskSpec.v -- C96: the questions that the four contracts answer, the texts of questions and answers, the types that a reader of the
    answers declares, and what an answer tells about the contract. *)

From Verif Require Export Ask EntrySpec.
From Verif Require Import MVSpecSized.
Import World.

(** the text of a value that is not there when the contract panics *)
Definition told {A} (f : A -> string) (r : res A) : res string := match r with Ok x => Ok (f x) | Panic m => Panic m end.
Definition both {A B} (f : A -> string) (g : B -> string) (p : A * B) : string := two (f p.1) (g p.2).
Definition from_to (i j : N) : string := obj [("from_index", pretty i); ("limit", pretty j)].
Definition only (n a : string) : string := obj [(n, quote a)].
Definition paged {A} (f : nat -> nat -> A) (i j : N) : A := f (N.to_nat i) (N.to_nat j).
Definition two_u32 (i j : N) : Prop := i < 2 ^ 32 /\ j < 2 ^ 32.
Definition paging : list (string * ty) := [("from_index", U32); ("limit", U32)].

(** ** The voting contract *)
Definition mv_asked (q : mvq) : list string * string :=
  match q with
  | QOwner => (["get_owner_id"], "{}")
  | QOperator => (["get_operator_id"], "{}")
  | QInfo => (["get_contract_info"], "{}")
  | QVotersCount => (["get_voters_count"], "{}")
  | QTotalPower => (["get_total_voting_power"], "{}")
  | QVoter v => (["get_voter_info"], only "voter_id" v)
  | QVoters i j => (["get_voters"], from_to i j)
  | QBalance v => (["get_balance"], only "voter_id" v)
  | QClaimMp v => (["get_claimable_mpdao"; "get_claimable_meta"], only "voter_id" v)
  | QClaimSt v => (["get_claimable_stnear"], only "voter_id" v)
  | QStClaims i j => (["get_stnear_claims"], from_to i j)
  | QClaims i j => (["get_claims"], from_to i j)
  | QLocked v => (["get_locked_balance"], only "voter_id" v)
  | QUnlocking v => (["get_unlocking_balance"], only "voter_id" v)
  | QAvailable v => (["get_available_voting_power"], only "voter_id" v)
  | QUsed v => (["get_used_voting_power"], only "voter_id" v)
  | QPeriod => (["get_locking_period"], "{}")
  | QPositions v => (["get_all_locking_positions"], only "voter_id" v)
  | QPosition i v => (["get_locking_position"], obj [("index", pretty i); ("voter_id", quote v)])
  | QTotalVotes a o => (["get_total_votes"], obj [("contract_address", quote a); ("votable_object_id", quote o)])
  | QByApp a => (["get_votes_by_app"], only "app_or_contract_address" a)
  | QByContract a => (["get_votes_by_contract"], only "contract_address" a)
  | QByVoter v => (["get_votes_by_voter"], only "voter_id" v)
  | QForObject v a o => (["get_votes_for_object"], obj [("voter_id", quote v); ("contract_address", quote a); ("votable_object_id", quote o)])
  | QUnclaimed => (["get_total_unclaimed_mpdao"; "get_total_unclaimed_meta"], "{}")
  | QAccumulated => (["get_accumulated_mpdao_distributed_for_claims"; "get_accumulated_distributed_for_claims"], "{}")
  | QRegCost => (["get_registration_cost"], "{}")
  | QRegistered a => (["check_if_registered_for_airdrops"; "check_if_user_is_registerd"], only "account_id" a)
  | QAirdrop a => (["get_airdrop_account"], only "account_id" a)
  | QAirdrops i j => (["get_airdrop_accounts"], from_to i j)
  | QHold => (["get_lock_in_vote_filters"], "{}")
  | QPre e => (["get_pre_delegate_evm_address"], only "evm_address" e)
  | QDelegating a => (["get_delegating_evm_addresses"], only "account_id" a)
  | QDelegates i j => (["get_delegates"], from_to i j)
  | QDelegate e => (["get_delegate"], only "evm_address" e)
  | QSignature e => (["get_delegation_signature"], only "evm_address" e)
  end.
(** the declared parameters *)
Definition mvq_params (q : mvq) : list (string * ty) :=
  match q with
  | QOwner | QOperator | QInfo | QVotersCount | QTotalPower | QPeriod | QUnclaimed | QAccumulated | QRegCost | QHold => []
  | QVoter _ | QBalance _ | QClaimMp _ | QClaimSt _ | QLocked _ | QUnlocking _ | QAvailable _ | QUsed _ | QPositions _ | QByVoter _ => [("voter_id", TStr)]
  | QVoters _ _ | QStClaims _ _ | QClaims _ _ | QAirdrops _ _ | QDelegates _ _ => paging
  | QPosition _ _ => [("index", U64); ("voter_id", TStr)]
  | QTotalVotes _ _ => [("contract_address", TStr); ("votable_object_id", TStr)]
  | QByApp _ => [("app_or_contract_address", TStr)]
  | QByContract _ => [("contract_address", TStr)]
  | QForObject _ _ _ => [("voter_id", TStr); ("contract_address", TStr); ("votable_object_id", TStr)]
  | QRegistered _ | QAirdrop _ => [("account_id", TStr)]
  | QPre _ | QDelegate _ | QSignature _ => [("evm_address", TStr)]
  | QDelegating _ => [("account_id", TAcc)]
  end.
Definition mvq_typed (q : mvq) : Prop :=
  match q with
  | QVoters i j | QStClaims i j | QClaims i j | QAirdrops i j | QDelegates i j => two_u32 i j
  | QPosition i _ => i < 2 ^ 64
  | QDelegating a => account_id a
  | _ => True
  end.

Definition position_text (j : lp_json) : string :=
  obj [("index", idx (j_index j)); ("amount", big (j_amount j)); ("locking_period", pretty (j_days j)); ("voting_power", big (j_vp j));
       ("unlocking_started_at", or_null pretty (j_unl j)); ("is_unlocked", yes_no (j_is_unlocked j));
       ("is_unlocking", yes_no (j_is_unlocking j)); ("is_locked", yes_no (j_is_locked j))].
Definition vote_text (t : string * string * N) : string :=
  obj [("votable_address", quote t.1.1); ("votable_object_id", quote t.1.2); ("voting_power", big t.2)].
Definition object_text (t : string * string * N) : string :=
  obj [("votable_contract", quote t.1.1); ("id", quote t.1.2); ("current_votes", big t.2)].
Definition voter_text (j : voter_json) : string :=
  obj [("voter_id", quote (vj_id j)); ("balance_in_contract", big (vj_balance j)); ("locking_positions", arr position_text (vj_lps j));
       ("voting_power", big (vj_avail j)); ("vote_positions", arr vote_text (vj_votes j))].
Definition info_text (s : state) : string :=
  obj [("owner_id", quote (owner_id s)); ("operator_id", quote (operator_id s)); ("voter_count", idx (length (voters s)));
       ("min_unbond_period", pretty (min_unbond s)); ("max_unbond_period", pretty (max_unbond s)); ("min_deposit_amount", big (min_deposit s));
       ("max_locking_positions", pretty (max_lps s)); ("max_voting_positions", pretty (max_vps s));
       ("mpdao_token_contract_address", quote (mpdao_addr s)); ("stnear_token_contract_address", quote (stnear_addr s));
       ("registration_cost", big (reg_cost s)); ("prev_governance_contract", quote (prev_gov s));
       ("accumulated_mpdao_distributed_for_claims", big (accum_mp s)); ("total_unclaimed_mpdao", big (uncl_mp s));
       ("accum_distributed_stnear_for_claims", big (accum_st s)); ("total_unclaimed_stnear", big (uncl_st s));
       ("evm_delegates_count", idx (length (evm_delegates s)))].
Definition mv_reply (now : N) (s : state) (q : mvq) : res string :=
  match q with
  | QOwner => Ok (quote (owner_id s))
  | QOperator => Ok (quote (operator_id s))
  | QInfo => Ok (info_text s)
  | QVotersCount => Ok (big (N.of_nat (get_voters_count s)))
  | QTotalPower => Ok (big (get_total_voting_power s))
  | QVoter v => told voter_text (get_voter_info now s v)
  | QVoters i j => told (arr voter_text) (paged (get_voters now s) i j)
  | QBalance v => told big (get_balance now s v)
  | QClaimMp v => Ok (big (get_claimable_mpdao s v))
  | QClaimSt v => Ok (big (get_claimable_stnear s v))
  | QStClaims i j => told (arr (both quote big)) (paged (get_stnear_claims s) i j)
  | QClaims i j => told (arr (both quote big)) (paged (get_claims s) i j)
  | QLocked v => told big (get_locked_balance s v)
  | QUnlocking v => told big (get_unlocking_balance now s v)
  | QAvailable v => Ok (big (get_available_voting_power s v))
  | QUsed v => told big (get_used_voting_power s v)
  | QPeriod => Ok (two (pretty (min_unbond s)) (pretty (max_unbond s)))
  | QPositions v => Ok (arr position_text (get_all_locking_positions now s v))
  | QPosition i v => Ok (or_null position_text (get_locking_position now s (N.to_nat i) v))
  | QTotalVotes a o => Ok (big (get_total_votes s a o))
  | QByApp a => Ok (arr (both quote big) (get_votes_by_app s a))
  | QByContract a => Ok (arr object_text (get_votes_by_contract s a))
  | QByVoter v => told (arr object_text) (get_votes_by_voter s v)
  | QForObject v a o => told big (get_votes_for_object s v a o)
  | QUnclaimed => Ok (big (get_total_unclaimed_mpdao s))
  | QAccumulated => Ok (big (get_accumulated_mpdao s))
  | QRegCost => Ok (big (get_registration_cost s))
  | QRegistered a => Ok (yes_no (check_if_registered s a))
  | QAirdrop a => told quote (get_airdrop_account s a)
  | QAirdrops i j => told (arr (both quote quote)) (paged (get_airdrop_accounts s) i j)
  | QHold => Ok ("[" +:+ pretty (lock_end s) +:+ "," +:+ or_null quote (lock_addr s) +:+ "," +:+ pretty (lock_id s) +:+ "]")
  | QPre e => Ok (or_null (both quote quote) (get_pre_delegate s e))
  | QDelegating a => Ok (arr quote (get_delegating_evm_addresses s a))
  | QDelegates i j => told (arr (both quote (arr quote))) (paged (get_delegates s) i j)
  | QDelegate e => Ok (or_null quote (get_delegate s e))
  | QSignature e => told (both quote quote) (get_delegation_signature s e)
  end.

(** the declared result types: view.rs, lib.rs, evm_delegate.rs, at the lines cited in Ask.v *)
Definition VOTE : ty := TRec [("votable_address", TStr); ("votable_object_id", TStr); ("voting_power", U128)].
Definition OBJECT : ty := TRec [("votable_contract", TStr); ("id", TStr); ("current_votes", U128)].
Definition VOTER : ty :=
  TRec [("voter_id", TStr); ("balance_in_contract", U128); ("locking_positions", TVec POSITION); ("voting_power", U128);
        ("vote_positions", TVec VOTE)].
Definition INFO : ty :=
  TRec [("owner_id", TStr); ("operator_id", TStr); ("voter_count", U64); ("min_unbond_period", U16); ("max_unbond_period", U16);
        ("min_deposit_amount", U128); ("max_locking_positions", U8); ("max_voting_positions", U8); ("mpdao_token_contract_address", TStr);
        ("stnear_token_contract_address", TStr); ("registration_cost", U128); ("prev_governance_contract", TStr);
        ("accumulated_mpdao_distributed_for_claims", U128); ("total_unclaimed_mpdao", U128); ("accum_distributed_stnear_for_claims", U128);
        ("total_unclaimed_stnear", U128); ("evm_delegates_count", U64)].
Definition mv_type (q : mvq) : ty :=
  match q with
  | QOwner | QOperator | QAirdrop _ => TStr
  | QInfo => INFO
  | QVotersCount => TDec U64_SIZE
  | QTotalPower | QBalance _ | QClaimMp _ | QClaimSt _ | QLocked _ | QUnlocking _ | QAvailable _ | QUsed _ | QTotalVotes _ _
  | QForObject _ _ _ | QUnclaimed | QAccumulated | QRegCost => U128
  | QVoter _ => VOTER
  | QVoters _ _ => TVec VOTER
  | QStClaims _ _ | QClaims _ _ | QByApp _ => TVec (TTup [TStr; U128])
  | QPeriod => TTup [U16; U16]
  | QPositions _ => TVec POSITION
  | QPosition _ _ => TOpt POSITION
  | QByContract _ | QByVoter _ => TVec OBJECT
  | QRegistered _ => TBool
  | QAirdrops _ _ => TVec (TTup [TStr; TStr])
  | QHold => TTup [U64; TOpt TStr; U16]
  | QPre _ => TOpt (TTup [TStr; TStr])
  | QDelegating _ => TVec TStr
  | QDelegates _ _ => TVec (TTup [TStr; TVec TStr])
  | QDelegate _ => TOpt TStr
  | QSignature _ => TTup [TStr; TStr]
  end.

(** the two contracts, at the two times, hold the same of what is asked *)
Definition mv_same (now : N) (s : state) (now' : N) (s' : state) (q : mvq) : Prop :=
  match q with
  | QOwner => owner_id s = owner_id s'
  | QOperator => operator_id s = operator_id s'
  | QInfo => get_contract_info s = get_contract_info s'
  | QVotersCount => get_voters_count s = get_voters_count s'
  | QTotalPower => get_total_voting_power s = get_total_voting_power s'
  | QVoter v => get_voter_info now s v = get_voter_info now' s' v
  | QVoters i j => paged (get_voters now s) i j = paged (get_voters now' s') i j
  | QBalance v => get_balance now s v = get_balance now' s' v
  | QClaimMp v => get_claimable_mpdao s v = get_claimable_mpdao s' v
  | QClaimSt v => get_claimable_stnear s v = get_claimable_stnear s' v
  | QStClaims i j => paged (get_stnear_claims s) i j = paged (get_stnear_claims s') i j
  | QClaims i j => paged (get_claims s) i j = paged (get_claims s') i j
  | QLocked v => get_locked_balance s v = get_locked_balance s' v
  | QUnlocking v => get_unlocking_balance now s v = get_unlocking_balance now' s' v
  | QAvailable v => get_available_voting_power s v = get_available_voting_power s' v
  | QUsed v => get_used_voting_power s v = get_used_voting_power s' v
  | QPeriod => get_locking_period s = get_locking_period s'
  | QPositions v => get_all_locking_positions now s v = get_all_locking_positions now' s' v
  | QPosition i v => get_locking_position now s (N.to_nat i) v = get_locking_position now' s' (N.to_nat i) v
  | QTotalVotes a o => get_total_votes s a o = get_total_votes s' a o
  | QByApp a => get_votes_by_app s a = get_votes_by_app s' a
  | QByContract a => get_votes_by_contract s a = get_votes_by_contract s' a
  | QByVoter v => get_votes_by_voter s v = get_votes_by_voter s' v
  | QForObject v a o => get_votes_for_object s v a o = get_votes_for_object s' v a o
  | QUnclaimed => get_total_unclaimed_mpdao s = get_total_unclaimed_mpdao s'
  | QAccumulated => get_accumulated_mpdao s = get_accumulated_mpdao s'
  | QRegCost => get_registration_cost s = get_registration_cost s'
  | QRegistered a => check_if_registered s a = check_if_registered s' a
  | QAirdrop a => get_airdrop_account s a = get_airdrop_account s' a
  | QAirdrops i j => paged (get_airdrop_accounts s) i j = paged (get_airdrop_accounts s') i j
  | QHold => get_lock_in_vote_filters s = get_lock_in_vote_filters s'
  | QPre e => get_pre_delegate s e = get_pre_delegate s' e
  | QDelegating a => get_delegating_evm_addresses s a = get_delegating_evm_addresses s' a
  | QDelegates i j => paged (get_delegates s) i j = paged (get_delegates s') i j
  | QDelegate e => get_delegate s e = get_delegate s' e
  | QSignature e => get_delegation_signature s e = get_delegation_signature s' e
  end.
(** a u64 counts the voters and the delegates (near-sdk stores the number of entries of a map as u64) *)
Definition countable (s : state) : Prop := N.of_nat (length (voters s)) < 2 ^ 64 /\ N.of_nat (length (evm_delegates s)) < 2 ^ 64.

(** ** The proposal contract *)
Definition board_asked (q : boardq) : string * string :=
  let of_mpip i := obj [("mpip_id", pretty i)] in
  match q with
  | BMine a => ("get_my_proposals", only "proposer_id" a)
  | BEnough n => ("check_proposal_threshold", obj [("voting_power", big n)])
  | BFee => ("get_mpip_storage_near", "{}")
  | BVotes i => ("get_proposal_votes", of_mpip i)
  | BReached i => ("get_quorum_reached", of_mpip i)
  | BSucceeded i => ("get_proposal_vote_succeeded", of_mpip i)
  | BState i => ("get_proposal_state", of_mpip i)
  | BProposal i => ("get_proposal", of_mpip i)
  | BProposals i j => ("get_proposals", from_to i j)
  | BIds a => ("get_user_proposals_ids", only "proposer_id" a)
  | BLast => ("get_last_proposal_id", "{}")
  | BFloor => ("get_quorum_floor", "{}")
  | BThreshold => ("get_proposal_threshold", "{}")
  | BTotalVoters => ("get_total_voters", "{}")
  | BActive i => ("get_proposal_is_active_or_draft", of_mpip i)
  | BVoted v i => ("has_voted", obj [("voter_id", quote v); ("mpip_id", pretty i)])
  | BMyVote v i => ("get_my_vote", obj [("voter_id", quote v); ("mpip_id", pretty i)])
  | BVoter v => ("get_voter", only "voter_id" v)
  end.
Definition boardq_params (q : boardq) : list (string * ty) :=
  match q with
  | BMine _ | BIds _ => [("proposer_id", TAcc)]
  | BEnough _ => [("voting_power", U128)]
  | BVotes _ | BReached _ | BSucceeded _ | BState _ | BProposal _ | BActive _ => [("mpip_id", U32)]
  | BProposals _ _ => paging
  | BVoted _ _ | BMyVote _ _ => [("voter_id", TAcc); ("mpip_id", U32)]
  | BVoter _ => [("voter_id", TAcc)]
  | BFee | BLast | BFloor | BThreshold | BTotalVoters => []
  end.
Definition boardq_typed (q : boardq) : Prop :=
  match q with
  | BMine a | BIds a | BVoter a => account_id a
  | BEnough n => n < 2 ^ 128
  | BVotes i | BReached i | BSucceeded i | BState i | BProposal i | BActive i => i < 2 ^ 32
  | BProposals i j => two_u32 i j
  | BVoted v i | BMyVote v i => account_id v /\ i < 2 ^ 32
  | _ => True
  end.
Definition ballot_text (j : vote_json) : string :=
  obj [("mpip_id", pretty (vt_mpip j.2)); ("voter_id", quote j.1);
       ("vote_type", match vt_type j.2 with VAgainst => """Against""" | VFor => """For""" | VAbstain => """Abstain""" end);
       ("voting_power", big (vt_power j.2)); ("memo", quote (vt_memo j.2))].
Definition proposal_text (p : mpip) : string :=
  obj ((("mpip_id", pretty (pr_id p)) :: content_text (pr_content p)) ++
       [("creator_id", quote (pr_creator p)); ("vote_start_timestamp", or_null pretty (pr_start p));
        ("vote_end_timestamp", or_null pretty (pr_end p)); ("draft", yes_no (pr_draft p)); ("executed", yes_no (pr_executed p));
        ("canceled", yes_no (pr_canceled p)); ("v_power_quorum_to_reach", or_null big (pr_quorum p))]).
Definition state_text (t : mpip_state) : string :=
  match t with
  | StDraft => """Draft""" | StActive => """Active""" | StVotingProcess => """VotingProcess""" | StAccepted => """Accepted"""
  | StRejected => """Rejected""" | StExecuted => """Executed""" | StCanceled => """Canceled"""
  end.
Definition board_reply (c : ctx) (s : mstate) (q : boardq) : res string :=
  let now := now_ms c in
  match q with
  | BMine a => Ok (arr pretty (get_my_proposals s a))
  | BEnough n => Ok (yes_no (check_proposal_threshold s n))
  | BFee => Ok (big (get_mpip_storage_near s))
  | BVotes i =>
      let v := get_pvote s i in
      Ok (obj [("for_votes", big (pv_for v)); ("against_votes", big (pv_against v)); ("abstain_votes", big (pv_abstain v));
               ("has_voted", arr ballot_text (pv_voted v))])
  | BReached i => told yes_no (get_quorum_reached c s i)
  | BSucceeded i => Ok (yes_no (get_proposal_vote_succeeded s i))
  | BState i => told state_text (get_proposal_state now s i)
  | BProposal i => told proposal_text (get_proposal s i)
  | BProposals i j => told (or_null (arr proposal_text)) (paged (get_proposals s) i j)
  | BIds a => Ok (arr pretty (get_user_proposals_ids s a))
  | BLast => told (or_null pretty) (get_last_proposal_id s)
  | BFloor => Ok (pretty (get_quorum_floor s))
  | BThreshold => Ok (big (get_proposal_threshold s))
  | BTotalVoters => Ok (big (N.of_nat (length (m_voters s))))
  | BActive i => told yes_no (get_proposal_is_active_or_draft now s i)
  | BVoted v i => Ok (yes_no (has_voted s v i))
  | BMyVote v i => told (or_null ballot_text) (get_my_vote s v i)
  | BVoter v => Ok (obj [("votes", arr ballot_text (get_voter_votes s v))])
  end.
Definition BALLOT : ty := TRec [("mpip_id", U32); ("voter_id", TAcc); ("vote_type", VOTE_TYPE); ("voting_power", U128); ("memo", TStr)].
Definition PROPOSAL : ty :=
  TRec [("mpip_id", U32); ("title", TStr); ("short_description", TStr); ("body", TStr); ("data", TStr); ("extra", TStr); ("creator_id", TAcc);
        ("vote_start_timestamp", TOpt U64); ("vote_end_timestamp", TOpt U64); ("draft", TBool); ("executed", TBool); ("canceled", TBool);
        ("v_power_quorum_to_reach", TOpt U128)].
Definition board_type (q : boardq) : ty :=
  match q with
  | BMine _ | BIds _ => TVec U32
  | BEnough _ | BReached _ | BSucceeded _ | BActive _ | BVoted _ _ => TBool
  | BFee | BThreshold => U128
  | BVotes _ => TRec [("for_votes", U128); ("against_votes", U128); ("abstain_votes", U128); ("has_voted", TVec BALLOT)]
  | BState _ => TEnum ["Draft"; "Active"; "VotingProcess"; "Accepted"; "Rejected"; "Executed"; "Canceled"]
  | BProposal _ => PROPOSAL
  | BProposals _ _ => TOpt (TVec PROPOSAL)
  | BLast => TOpt U32
  | BFloor => U16
  | BTotalVoters => TStr
  | BMyVote _ _ => TOpt BALLOT
  | BVoter _ => TRec [("votes", TVec BALLOT)]
  end.
Definition board_same (c : ctx) (s : mstate) (c' : ctx) (s' : mstate) (q : boardq) : Prop :=
  match q with
  | BMine a => get_my_proposals s a = get_my_proposals s' a
  | BEnough n => check_proposal_threshold s n = check_proposal_threshold s' n
  | BFee => get_mpip_storage_near s = get_mpip_storage_near s'
  | BVotes i => get_proposal_votes s i = get_proposal_votes s' i
  | BReached i => get_quorum_reached c s i = get_quorum_reached c' s' i
  | BSucceeded i => get_proposal_vote_succeeded s i = get_proposal_vote_succeeded s' i
  | BState i => get_proposal_state (now_ms c) s i = get_proposal_state (now_ms c') s' i
  | BProposal i => get_proposal s i = get_proposal s' i
  | BProposals i j => paged (get_proposals s) i j = paged (get_proposals s') i j
  | BIds a => get_user_proposals_ids s a = get_user_proposals_ids s' a
  | BLast => get_last_proposal_id s = get_last_proposal_id s'
  | BFloor => get_quorum_floor s = get_quorum_floor s'
  | BThreshold => get_proposal_threshold s = get_proposal_threshold s'
  | BTotalVoters => length (m_voters s) = length (m_voters s')
  | BActive i => get_proposal_is_active_or_draft (now_ms c) s i = get_proposal_is_active_or_draft (now_ms c') s' i
  | BVoted v i => has_voted s v i = has_voted s' v i
  | BMyVote v i => get_my_vote s v i = get_my_vote s' v i
  | BVoter v => get_voter_votes s v = get_voter_votes s' v
  end.
(** the callers are accounts *)
Definition by_account (e : mevent) : Prop := match e with MCall c _ => account_id (c_pred c) /\ account_id (c_signer c) | MAnswer _ _ _ => True end.

(** ** The token *)
Definition tok_asked (q : tokq) : string * string :=
  match q with
  | TQOwner => ("get_owner_id", "{}")
  | TQMinters => ("get_minters", "{}")
  | TQSupply => ("ft_total_supply", "{}")
  | TQBalance a => ("ft_balance_of", only "account_id" a)
  | TQBounds => ("storage_balance_bounds", "{}")
  | TQStorage a => ("storage_balance_of", only "account_id" a)
  end.
Definition tokq_params (q : tokq) : list (string * ty) := match q with TQBalance _ | TQStorage _ => [("account_id", TAcc)] | _ => [] end.
Definition tokq_typed (q : tokq) : Prop := match q with TQBalance a | TQStorage a => account_id a | _ => True end.
Definition tok_reply (t : tstate) (q : tokq) : string :=
  match q with
  | TQOwner => quote (t_owner t)
  | TQMinters => arr quote (t_minters t)
  | TQSupply => big (ft_total_supply t)
  | TQBalance a => big (ft_balance_of t a)
  | TQBounds => obj [("min", big (t_min_storage t)); ("max", big (t_min_storage t))]
  | TQStorage a => if t_registered t a then obj [("total", big (t_min_storage t)); ("available", """0""")] else "null"
  end.
Definition tok_type (q : tokq) : ty :=
  match q with
  | TQOwner => TAcc
  | TQMinters => TVec TAcc
  | TQSupply | TQBalance _ => U128
  | TQBounds => TRec [("min", U128); ("max", TOpt U128)]
  | TQStorage _ => TOpt (TRec [("total", U128); ("available", U128)])
  end.
Definition tok_same (t t' : tstate) (q : tokq) : Prop :=
  match q with
  | TQOwner => t_owner t = t_owner t'
  | TQMinters => t_minters t = t_minters t'
  | TQSupply => ft_total_supply t = ft_total_supply t'
  | TQBalance a => ft_balance_of t a = ft_balance_of t' a
  | TQBounds => t_min_storage t = t_min_storage t'
  | TQStorage a => t_storage_balance_of t a = t_storage_balance_of t' a
  end.
(** who is made owner or minter is an account *)
Definition names_account (x : tcall) : Prop := match x.2 with TSetOwner a | TAddMinter a => account_id a | _ => True end.

(** ** The key-value store *)
Definition kv_asked (q : kvq) : string * string :=
  match q with
  | KQGet k => ("get_value", only "key" k)
  | KQPage i j => ("get_values", from_to i j)
  | KQOwner => ("get_owner_id", "{}")
  | KQOperator => ("get_operator_id", "{}")
  | KQCount => ("get_kv_count", "{}")
  end.
Definition kvq_params (q : kvq) : list (string * ty) := match q with KQGet _ => [("key", TStr)] | KQPage _ _ => paging | _ => [] end.
Definition kvq_typed (q : kvq) : Prop := match q with KQPage i j => two_u32 i j | _ => True end.
Definition kv_reply (s : kvstate) (q : kvq) : res string :=
  match q with
  | KQGet k => told (or_null quote) (kv_get_value s k)
  | KQPage i j => told (arr (both quote quote)) (paged (kv_get_values s) i j)
  | KQOwner => Ok (quote (k_owner s))
  | KQOperator => Ok (quote (k_operator s))
  | KQCount => Ok (big (N.of_nat (k_len s)))
  end.
Definition kv_type (q : kvq) : ty :=
  match q with KQGet _ => TOpt TStr | KQPage _ _ => TVec (TTup [TStr; TStr]) | KQOwner | KQOperator => TStr | KQCount => TDec U64_SIZE end.
Definition kv_same (s s' : kvstate) (q : kvq) : Prop :=
  match q with
  | KQGet k => kv_get_value s k = kv_get_value s' k
  | KQPage i j => paged (kv_get_values s) i j = paged (kv_get_values s') i j
  | KQOwner => k_owner s = k_owner s'
  | KQOperator => k_operator s = k_operator s'
  | KQCount => k_len s = k_len s'
  end.
