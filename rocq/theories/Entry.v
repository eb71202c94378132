(** Entry.v -- calls from outside as they arrive: the name of a method and the JSON text of its arguments; and the system of Post.v
    with such calls.

    near_bindgen reads the arguments of a method as a record with the names of its parameters; a method without parameters does not
    look at the text.  A call whose method does not exist, or whose text cannot be read, panics.  Only methods that can change
    something are listed: views and the init methods, which panic on a deployed contract, change nothing; nor do the #[private]
    callbacks (Post.v), which panic when called from outside.  Not listed: migrate (Migrate.v). *)

From Verif Require Export Post KV.
From RecordUpdate Require Import RecordUpdate.
Import World.

Definition method (A : Type) : Type := list (string * ty) * (list val -> option A).
Definition enter {A} (l : list (string * method A)) (m a : string) : option A :=
  '(fs, f) ← find_key m l;
  vs ← match fs with [] => Some [] | _ => read_args fs a end;
  f vs.

Notation U16 := (TNum U16_SIZE).
Notation U32 := (TNum U32_SIZE).
Notation U64 := (TNum U64_SIZE).
Notation U128 := (TDec U128_SIZE).
Definition val_str (v : val) : option (option string) := match v with VNone => Some None | VSome (VStr s) => Some (Some s) | _ => None end.
Definition val_idx (v : val) : option nat := match v with VNum n => Some (N.to_nat n) | _ => None end.
Definition val_strs (v : val) : option (string * string) := match v with VList [VStr a; VStr b] => Some (a, b) | _ => None end.
Definition val_big_num (v : val) : option (N * N) := match v with VList [VBig a; VNum b] => Some (a, b) | _ => None end.
Definition val_num_big (v : val) : option (N * N) := match v with VList [VNum a; VBig b] => Some (a, b) | _ => None end.

(** meta-vote-contract/src: lib.rs, deposit.rs, withdraw.rs, evm_delegate.rs, at the lines of the methods *)
Definition mv_methods : list (string * method op) := [
  (* lib.rs:124 *)
  ("set_stnear_contract", ([("stnear_contract", TAcc)], fun l => match l with [VStr a] => Some (SetStnear a) | _ => None end));
  (* lib.rs:130 *)
  ("set_operator_id", ([("operator_id", TAcc)], fun l => match l with [VStr a] => Some (SetOperator a) | _ => None end));
  (* lib.rs:136 *)
  ("set_owner_id", ([("owner_id", TAcc)], fun l => match l with [VStr a] => Some (SetOwner a) | _ => None end));
  (* lib.rs:147 *)
  ("update_registration_cost", ([("new_cost", U128)], fun l => match l with [VBig n] => Some (UpdateRegCost n) | _ => None end));
  (* lib.rs:166 *)
  ("update_airdrop_user_data", ([("encrypted_data", TStr)], fun l => match l with [VStr a] => Some (UpdateAirdrop a) | _ => None end));
  (* lib.rs:180 *)
  ("operator_multi_set_airdrop_data", ([("data", TVec (TTup [TStr; TStr]))],
    fun l => match l with [VList d] => d ← mapM val_strs d; Some (OpMultiSetAirdrop d) | _ => None end));
  (* lib.rs:208 *)
  ("claim_and_lock", ([("amount", U128); ("locking_period", U16)],
    fun l => match l with [VBig n; VNum d] => Some (ClaimAndLock n d) | _ => None end));
  (* lib.rs:219 *)
  ("claim_stnear", ([("amount", U128)], fun l => match l with [VBig n] => Some (ClaimStnear n) | _ => None end));
  (* lib.rs:231 *)
  ("unlock_position", ([("index", U64)], fun l => match l with [VNum i] => Some (Unlock (N.to_nat i)) | _ => None end));
  (* lib.rs:256 *)
  ("unlock_partial_position", ([("index", U64); ("amount", U128)],
    fun l => match l with [VNum i; VBig n] => Some (UnlockPartial (N.to_nat i) n) | _ => None end));
  (* lib.rs:312 *)
  ("locking_position_extend_days", ([("index", U64); ("new_locking_period", U16)],
    fun l => match l with [VNum i; VNum d] => Some (ExtendDays (N.to_nat i) d) | _ => None end));
  (* lib.rs:357 *)
  ("relock_position", ([("index", U64); ("locking_period", U16); ("amount_from_balance", U128)],
    fun l => match l with [VNum i; VNum d; VBig n] => Some (Relock (N.to_nat i) d n) | _ => None end));
  (* lib.rs:406 *)
  ("relock_partial_position", ([("index", U64); ("amount_from_position", U128); ("locking_period", U16); ("amount_from_balance", U128)],
    fun l => match l with [VNum i; VBig p; VNum d; VBig n] => Some (RelockPartial (N.to_nat i) p d n) | _ => None end));
  (* lib.rs:483 *)
  ("relock_from_balance", ([("locking_period", U16); ("amount_from_balance", U128)],
    fun l => match l with [VNum d; VBig n] => Some (RelockFromBalance d n) | _ => None end));
  (* lib.rs:511 *)
  ("clear_locking_position", ([("position_index_list", TVec U64)],
    fun l => match l with [VList d] => d ← mapM val_idx d; Some (ClearPositions d) | _ => None end));
  (* lib.rs:523 *)
  ("vote", ([("voting_power", U128); ("contract_address", TStr); ("votable_object_id", TStr)],
    fun l => match l with [VBig n; VStr a; VStr b] => Some (Vote n a b) | _ => None end));
  (* lib.rs:602 *)
  ("rebalance", ([("voting_power", U128); ("contract_address", TStr); ("votable_object_id", TStr)],
    fun l => match l with [VBig n; VStr a; VStr b] => Some (Rebalance n a b) | _ => None end));
  (* lib.rs:717 *)
  ("unvote", ([("contract_address", TStr); ("votable_object_id", TStr)],
    fun l => match l with [VStr a; VStr b] => Some (Unvote a b) | _ => None end));
  (* lib.rs:757 *)
  ("set_lock_in_vote_filters", ([("end_timestamp_ms", U64); ("votable_numeric_id", U16); ("votable_address", TOpt TStr)],
    fun l => match l with [VNum t; VNum i; a] => a ← val_str a; Some (SetLockIn t i a) | _ => None end));
  (* lib.rs:777 *)
  ("update_min_unbond_period", ([("new_min_unbond_period", U16)], fun l => match l with [VNum d] => Some (UpdateMinUnbond d) | _ => None end));
  (* lib.rs:783 *)
  ("update_max_unbond_period", ([("new_max_unbond_period", U16)], fun l => match l with [VNum d] => Some (UpdateMaxUnbond d) | _ => None end));
  (* lib.rs:789 *)
  ("set_prev_gov_contract", ([("contract_id", TStr)], fun l => match l with [VStr a] => Some (SetPrevGov a) | _ => None end));
  (* lib.rs:799 *)
  ("migration_create_lps", ([("voter_id", TStr); ("locking_positions", TVec (TTup [U128; U16])); ("encrypted_associated_user_data", TOpt TStr)],
    fun l => match l with [VStr v; VList d; a] => d ← mapM val_big_num d; a ← val_str a; Some (MigrationCreateLps v d a) | _ => None end));
  (* lib.rs:834 *)
  ("operator_mirror_lps", ([("external_address", TStr); ("locking_positions", TVec (TTup [U16; U128]))],
    fun l => match l with [VStr v; VList d] => d ← mapM val_num_big d; Some (MirrorLps v d) | _ => None end));
  (* evm_delegate.rs:13 *)
  ("pre_delegate_evm_address", ([("evm_address", TStr); ("signature", TStr)],
    fun l => match l with [VStr a; VStr b] => Some (PreDelegate a b) | _ => None end));
  (* evm_delegate.rs:31 *)
  ("operator_remove_pre_delegate_evm_address", ([("evm_address", TStr)], fun l => match l with [VStr a] => Some (OpRemovePre a) | _ => None end));
  (* evm_delegate.rs:38 *)
  ("operator_confirm_delegated_evm_address", ([("evm_address", TStr)], fun l => match l with [VStr a] => Some (OpConfirm a) | _ => None end));
  (* evm_delegate.rs:78 *)
  ("delegated_claim_stnear", ([("evm_address", TStr); ("amount", U128)],
    fun l => match l with [VStr a; VBig n] => Some (DelegatedClaim a n) | _ => None end));
  (* evm_delegate.rs:113 *)
  ("vote_delegated", ([("evm_address", TStr); ("voting_power", U128); ("contract_address", TStr); ("votable_object_id", TStr)],
    fun l => match l with [VStr e; VBig n; VStr a; VStr b] => Some (VoteDelegated e n a b) | _ => None end));
  (* evm_delegate.rs:130 *)
  ("unvote_delegated", ([("evm_address", TStr); ("contract_address", TStr); ("votable_object_id", TStr)],
    fun l => match l with [VStr e; VStr a; VStr b] => Some (UnvoteDelegated e a b) | _ => None end));
  (* evm_delegate.rs:142 *)
  ("remove_delegated_evm_address", ([("evm_address", TStr)], fun l => match l with [VStr a] => Some (RemoveDelegated a) | _ => None end));
  (* withdraw.rs:44 *)
  ("withdraw", ([("position_index_list", TVec U64); ("amount_from_balance", U128)],
    fun l => match l with [VList d; VBig n] => d ← mapM val_idx d; Some (Withdraw d n) | _ => None end));
  (* withdraw.rs:55 *)
  ("withdraw_all", ([], fun l => match l with [] => Some WithdrawAll | _ => None end));
  (* deposit.rs:13 *)
  ("ft_on_transfer", ([("sender_id", TAcc); ("amount", U128); ("msg", TStr)],
    fun l => match l with [VStr a; VBig n; VStr b] => Some (FtOnTransfer a n b) | _ => None end)) ].
Definition mv_entry : string -> string -> option op := enter mv_methods.

(** test-meta-token/src/lib.rs; registration_only and the memos are not used by the model of the token (Token.v) *)
Definition tok_methods : list (string * method top) := [
  (* lib.rs:111 *)
  ("set_owner_id", ([("owner_id", TAcc)], fun l => match l with [VStr a] => Some (TSetOwner a) | _ => None end));
  (* lib.rs:119 *)
  ("add_minter", ([("account_id", TAcc)], fun l => match l with [VStr a] => Some (TAddMinter a) | _ => None end));
  (* lib.rs:130 *)
  ("remove_minter", ([("account_id", TAcc)], fun l => match l with [VStr a] => Some (TRemoveMinter a) | _ => None end));
  (* lib.rs:151 *)
  ("ft_mint", ([("amount", U128); ("memo", TOpt TStr)], fun l => match l with [VBig n; _] => Some (TMint n) | _ => None end));
  (* lib.rs:166 *)
  ("ft_burn", ([("amount", U128); ("memo", TOpt TStr)], fun l => match l with [VBig n; _] => Some (TBurn n) | _ => None end));
  (* lib.rs:182 *)
  ("ft_transfer", ([("receiver_id", TAcc); ("amount", U128); ("memo", TOpt TStr)],
    fun l => match l with [VStr a; VBig n; _] => Some (TTransfer a n) | _ => None end));
  (* lib.rs:187 *)
  ("ft_transfer_call", ([("receiver_id", TAcc); ("amount", U128); ("memo", TOpt TStr); ("msg", TStr)],
    fun l => match l with [VStr a; VBig n; _; VStr m] => Some (TTransferCall a n m) | _ => None end));
  (* lib.rs:228 *)
  ("storage_deposit", ([("account_id", TOpt TAcc); ("registration_only", TOpt TBool)],
    fun l => match l with [a; _] => a ← val_str a; Some (TStorageDeposit a) | _ => None end));
  (* lib.rs:237; NearToken: a decimal number in a string, as U128 *)
  ("storage_withdraw", ([("amount", TOpt U128)],
    fun l => match l with [VNone] => Some (TStorageWithdraw None) | [VSome (VBig n)] => Some (TStorageWithdraw (Some n)) | _ => None end));
  (* lib.rs:242; near-contract-standards internal_storage_unregister: force.unwrap_or(false) *)
  ("storage_unregister", ([("force", TOpt TBool)],
    fun l => match l with [VNone] => Some (TUnregister false) | [VSome (VBool b)] => Some (TUnregister b) | _ => None end)) ].
Definition tok_entry : string -> string -> option top := enter tok_methods.

(** mpip-contract/src/lib.rs; VoteType: vote.rs:7-13 *)
Definition CONTENT : list (string * ty) := [("title", TStr); ("short_description", TStr); ("body", TStr); ("data", TStr); ("extra", TStr)].
Definition VOTE_TYPE : ty := TEnum ["Against"; "For"; "Abstain"].
Definition board_methods : list (string * method mop) := [
  (* lib.rs:108 *)
  ("update_open_for_new_mpips", ([("new_value", TBool)], fun l => match l with [VBool b] => Some (UpdateOpen b) | _ => None end));
  (* lib.rs:114 *)
  ("update_operator_role", ([("new_value", TAcc)], fun l => match l with [VStr a] => Some (UpdateOperatorRole a) | _ => None end));
  (* lib.rs:120 *)
  ("update_admin_role", ([("new_value", TAcc)], fun l => match l with [VStr a] => Some (UpdateAdminRole a) | _ => None end));
  (* lib.rs:125 *)
  ("pay_to_account", ([("amount", U128); ("to", TAcc)], fun l => match l with [VBig n; VStr a] => Some (PayToAccount n a) | _ => None end));
  (* lib.rs:135 *)
  ("update_voting_period", ([("new_value", TDec U64_SIZE)], fun l => match l with [VBig n] => Some (UpdateVotingPeriod n) | _ => None end));
  (* lib.rs:148 *)
  ("update_min_meta_amount", ([("new_value", U128)], fun l => match l with [VBig n] => Some (UpdateMinMeta n) | _ => None end));
  (* lib.rs:154 *)
  ("update_min_voting_power_amount", ([("new_value", U128)], fun l => match l with [VBig n] => Some (UpdateMinVp n) | _ => None end));
  (* lib.rs:160 *)
  ("update_mpip_storage_near", ([("new_value", U128)], fun l => match l with [VBig n] => Some (UpdateStorage n) | _ => None end));
  (* lib.rs:166 *)
  ("update_quorum_floor", ([("new_value", U16)], fun l => match l with [VNum n] => Some (UpdateQuorumFloor n) | _ => None end));
  (* lib.rs:177 *)
  ("start_voting_period", ([("mpip_id", U32)], fun l => match l with [VNum i] => Some (StartVoting i) | _ => None end));
  (* lib.rs:208 *)
  ("create_proposal", (CONTENT,
    fun l => match l with [VStr t; VStr s; VStr b; VStr d; VStr e] => Some (CreateProposal (mkContent t s b d e)) | _ => None end));
  (* lib.rs:245 *)
  ("cancel_proposal", ([("mpip_id", U32)], fun l => match l with [VNum i] => Some (CancelProposal i) | _ => None end));
  (* lib.rs:253 *)
  ("update_proposal", (("mpip_id", U32) :: CONTENT,
    fun l => match l with [VNum i; VStr t; VStr s; VStr b; VStr d; VStr e] => Some (UpdateProposal i (mkContent t s b d e)) | _ => None end));
  (* lib.rs:273 *)
  ("update_meta_vote_contract_address", ([("new_meta_vote_contract_address", TAcc)],
    fun l => match l with [VStr a] => Some (UpdateMetaVoteAddress a) | _ => None end));
  (* lib.rs:372 *)
  ("vote_proposal", ([("mpip_id", U32); ("vote", VOTE_TYPE); ("memo", TStr)],
    fun l => match l with [VNum i; VStr v; VStr m] => v ← read_vote v; Some (VoteProposal i v m) | _ => None end));
  (* lib.rs:439 *)
  ("remove_vote_proposal", ([("mpip_id", U32)], fun l => match l with [VNum i] => Some (RemoveVoteProposal i) | _ => None end));
  (* lib.rs:493 *)
  ("process_voting_status", ([("mpip_id", U32)], fun l => match l with [VNum i] => Some (ProcessVotingStatus i) | _ => None end)) ].
Definition board_entry : string -> string -> option mop := enter board_methods.

(** kv-store-contract/src/lib.rs *)
Definition kv_methods : list (string * method kvop) := [
  (* lib.rs:42 *)
  ("set_operator_id", ([("operator_id", TAcc)], fun l => match l with [VStr a] => Some (KSetOperator a) | _ => None end));
  (* lib.rs:48 *)
  ("set_owner_id", ([("owner_id", TAcc)], fun l => match l with [VStr a] => Some (KSetOwner a) | _ => None end));
  (* lib.rs:75 *)
  ("set_value", ([("key", TStr); ("value", TStr)], fun l => match l with [VStr k; VStr v] => Some (KSet k v) | _ => None end));
  (* lib.rs:80 *)
  ("set_values", ([("kv_array", TVec (TTup [TStr; TStr]))],
    fun l => match l with [VList d] => d ← mapM val_strs d; Some (KSetAll d) | _ => None end));
  (* lib.rs:87 *)
  ("remove_value", ([("key", TStr)], fun l => match l with [VStr k] => Some (KRemove k) | _ => None end)) ].
Definition kv_entry : string -> string -> option kvop := enter kv_methods.

(** ** The system: everything that arrives is text *)
Inductive tev :=
| ZCall (from signer to method args : string) (deposit ts : N)      (* a call from outside *)
| ZRun (i : nat) (ts : N) (fail : bool) (alt : option string).      (* a receipt, as in Post.v *)
Definition at_time (from signer : string) (deposit ts : N) : ctx := mkCtx from signer deposit ts json_pair json_claims.
(** the call that is made; [None]: it panics before the method starts *)
Definition zread (x : net) (e : tev) : option xev :=
  match e with
  | ZCall f g to m a d ts =>
      let c := at_time f g d ts in
      if bool_decide (to = self_id (n_mv x)) then o ← mv_entry m a; Some (XMv (c, o))
      else if bool_decide (to = t_self (n_mp x)) then o ← tok_entry m a; Some (XTok Mp (c, o))
      else if bool_decide (to = t_self (n_st x)) then o ← tok_entry m a; Some (XTok St (c, o))
      else if bool_decide (to = m_self (n_board x)) then o ← board_entry m a; Some (XBoard c o)
      else None
  | ZRun i ts fail alt => Some (XRun i (at_time EmptyString EmptyString 0 ts) fail alt)
  end.
Definition zstep (x : net) (e : tev) : net := match zread x e with Some e' => xstep x e' | None => x end.
Definition zrun (x : net) (tr : list tev) : net := fold_left zstep tr x.
