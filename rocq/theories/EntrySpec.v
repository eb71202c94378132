(** EntrySpec.v -- C94: the calls that the four contracts accept, their texts, and what the chain guarantees of a call. *)

From Verif Require Export Entry PostSpec.
From Verif Require Import MVSpecSized MVSpecMsg.
From Verif Require MpipSpecSized.
Import World.

(** ** Texts: objects and arrays without white space *)
Definition obj (l : list (string * string)) : string := "{" +:+ String.concat "," (map (fun p => """" +:+ p.1 +:+ """:" +:+ p.2) l) +:+ "}".
Definition arr {A} (f : A -> string) (l : list A) : string := "[" +:+ String.concat "," (map f l) +:+ "]".
Definition or_null {A} (f : A -> string) (o : option A) : string := match o with Some x => f x | None => "null" end.
Definition yes_no (b : bool) : string := if b then "true" else "false".
Definition idx (i : nat) : string := pretty (N.of_nat i).
Definition two (a b : string) : string := "[" +:+ a +:+ "," +:+ b +:+ "]".
(** the text [a] says what the text [b] says about parameters of these names and types; a method without parameters does not look at it *)
Definition reads_as (ps : list (string * ty)) (a b : string) : Prop := ps = [] \/ json (TRec ps) a = json (TRec ps) b.

Definition mv_text (o : op) : string * string :=
  match o with
  | SetStnear a => ("set_stnear_contract", obj [("stnear_contract", quote a)])
  | SetOperator a => ("set_operator_id", obj [("operator_id", quote a)])
  | SetOwner a => ("set_owner_id", obj [("owner_id", quote a)])
  | UpdateRegCost n => ("update_registration_cost", obj [("new_cost", big n)])
  | UpdateAirdrop d => ("update_airdrop_user_data", obj [("encrypted_data", quote d)])
  | OpMultiSetAirdrop l => ("operator_multi_set_airdrop_data", obj [("data", arr (fun p => two (quote p.1) (quote p.2)) l)])
  | ClaimAndLock n d => ("claim_and_lock", obj [("amount", big n); ("locking_period", pretty d)])
  | ClaimStnear n => ("claim_stnear", obj [("amount", big n)])
  | Unlock i => ("unlock_position", obj [("index", idx i)])
  | UnlockPartial i n => ("unlock_partial_position", obj [("index", idx i); ("amount", big n)])
  | ExtendDays i d => ("locking_position_extend_days", obj [("index", idx i); ("new_locking_period", pretty d)])
  | Relock i d n => ("relock_position", obj [("index", idx i); ("locking_period", pretty d); ("amount_from_balance", big n)])
  | RelockPartial i p d n =>
      ("relock_partial_position",
       obj [("index", idx i); ("amount_from_position", big p); ("locking_period", pretty d); ("amount_from_balance", big n)])
  | RelockFromBalance d n => ("relock_from_balance", obj [("locking_period", pretty d); ("amount_from_balance", big n)])
  | ClearPositions l => ("clear_locking_position", obj [("position_index_list", arr idx l)])
  | Vote n a b => ("vote", obj [("voting_power", big n); ("contract_address", quote a); ("votable_object_id", quote b)])
  | Rebalance n a b => ("rebalance", obj [("voting_power", big n); ("contract_address", quote a); ("votable_object_id", quote b)])
  | Unvote a b => ("unvote", obj [("contract_address", quote a); ("votable_object_id", quote b)])
  | SetLockIn t i a =>
      ("set_lock_in_vote_filters",
       obj [("end_timestamp_ms", pretty t); ("votable_numeric_id", pretty i); ("votable_address", or_null quote a)])
  | UpdateMinUnbond d => ("update_min_unbond_period", obj [("new_min_unbond_period", pretty d)])
  | UpdateMaxUnbond d => ("update_max_unbond_period", obj [("new_max_unbond_period", pretty d)])
  | SetPrevGov a => ("set_prev_gov_contract", obj [("contract_id", quote a)])
  | MigrationCreateLps v l d =>
      ("migration_create_lps",
       obj [("voter_id", quote v); ("locking_positions", arr (fun p => two (big p.1) (pretty p.2)) l);
            ("encrypted_associated_user_data", or_null quote d)])
  | MirrorLps e l =>
      ("operator_mirror_lps", obj [("external_address", quote e); ("locking_positions", arr (fun p => two (pretty p.1) (big p.2)) l)])
  | PreDelegate e s => ("pre_delegate_evm_address", obj [("evm_address", quote e); ("signature", quote s)])
  | OpRemovePre e => ("operator_remove_pre_delegate_evm_address", obj [("evm_address", quote e)])
  | OpConfirm e => ("operator_confirm_delegated_evm_address", obj [("evm_address", quote e)])
  | DelegatedClaim e n => ("delegated_claim_stnear", obj [("evm_address", quote e); ("amount", big n)])
  | VoteDelegated e n a b =>
      ("vote_delegated",
       obj [("evm_address", quote e); ("voting_power", big n); ("contract_address", quote a); ("votable_object_id", quote b)])
  | UnvoteDelegated e a b =>
      ("unvote_delegated", obj [("evm_address", quote e); ("contract_address", quote a); ("votable_object_id", quote b)])
  | RemoveDelegated e => ("remove_delegated_evm_address", obj [("evm_address", quote e)])
  | Withdraw l n => ("withdraw", obj [("position_index_list", arr idx l); ("amount_from_balance", big n)])
  | WithdrawAll => ("withdraw_all", obj [])
  | FtOnTransfer s n m => ("ft_on_transfer", obj [("sender_id", quote s); ("amount", big n); ("msg", quote m)])
  | AfterMp v n _ => ("after_transfer_mpdao_callback", obj [("voter_id", quote v); ("amount", big n)])
  | AfterSt v n _ => ("after_transfer_stnear_callback", obj [("source", quote v); ("amount", big n)])
  end.
(** the declared parameters *)
Definition mv_params (o : op) : list (string * ty) :=
  match o with
  | SetStnear _ => [("stnear_contract", TAcc)]
  | SetOperator _ => [("operator_id", TAcc)]
  | SetOwner _ => [("owner_id", TAcc)]
  | UpdateRegCost _ => [("new_cost", U128)]
  | UpdateAirdrop _ => [("encrypted_data", TStr)]
  | OpMultiSetAirdrop _ => [("data", TVec (TTup [TStr; TStr]))]
  | ClaimAndLock _ _ => [("amount", U128); ("locking_period", U16)]
  | ClaimStnear _ => [("amount", U128)]
  | Unlock _ => [("index", U64)]
  | UnlockPartial _ _ => [("index", U64); ("amount", U128)]
  | ExtendDays _ _ => [("index", U64); ("new_locking_period", U16)]
  | Relock _ _ _ => [("index", U64); ("locking_period", U16); ("amount_from_balance", U128)]
  | RelockPartial _ _ _ _ => [("index", U64); ("amount_from_position", U128); ("locking_period", U16); ("amount_from_balance", U128)]
  | RelockFromBalance _ _ => [("locking_period", U16); ("amount_from_balance", U128)]
  | ClearPositions _ => [("position_index_list", TVec U64)]
  | Vote _ _ _ | Rebalance _ _ _ => [("voting_power", U128); ("contract_address", TStr); ("votable_object_id", TStr)]
  | Unvote _ _ => [("contract_address", TStr); ("votable_object_id", TStr)]
  | SetLockIn _ _ _ => [("end_timestamp_ms", U64); ("votable_numeric_id", U16); ("votable_address", TOpt TStr)]
  | UpdateMinUnbond _ => [("new_min_unbond_period", U16)]
  | UpdateMaxUnbond _ => [("new_max_unbond_period", U16)]
  | SetPrevGov _ => [("contract_id", TStr)]
  | MigrationCreateLps _ _ _ => [("voter_id", TStr); ("locking_positions", TVec (TTup [U128; U16])); ("encrypted_associated_user_data", TOpt TStr)]
  | MirrorLps _ _ => [("external_address", TStr); ("locking_positions", TVec (TTup [U16; U128]))]
  | PreDelegate _ _ => [("evm_address", TStr); ("signature", TStr)]
  | OpRemovePre _ | OpConfirm _ | RemoveDelegated _ => [("evm_address", TStr)]
  | DelegatedClaim _ _ => [("evm_address", TStr); ("amount", U128)]
  | VoteDelegated _ _ _ _ => [("evm_address", TStr); ("voting_power", U128); ("contract_address", TStr); ("votable_object_id", TStr)]
  | UnvoteDelegated _ _ _ => [("evm_address", TStr); ("contract_address", TStr); ("votable_object_id", TStr)]
  | Withdraw _ _ => [("position_index_list", TVec U64); ("amount_from_balance", U128)]
  | WithdrawAll => []
  | FtOnTransfer _ _ _ => [("sender_id", TAcc); ("amount", U128); ("msg", TStr)]
  | AfterMp _ _ _ => [("voter_id", TStr); ("amount", U128)]
  | AfterSt _ _ _ => [("source", TStr); ("amount", U128)]
  end.
(** numbers in range, account ids where the parameter is an AccountId; the callbacks are not for the public *)
Definition mv_typed (o : op) : Prop :=
  sized_op o /\
  match o with
  | SetStnear a | SetOperator a | SetOwner a | FtOnTransfer a _ _ => account_id a
  | Unlock i | UnlockPartial i _ | ExtendDays i _ | Relock i _ _ | RelockPartial i _ _ _ => N.of_nat i < 2 ^ 64
  | ClearPositions l | Withdraw l _ => List.Forall (fun i => N.of_nat i < 2 ^ 64) l
  | AfterMp _ _ _ | AfterSt _ _ _ => False
  | _ => True
  end.
(** the method [m] called with the text [a] *)
Definition mv_means (m a : string) (o : op) : Prop := mv_typed o /\ m = (mv_text o).1 /\ reads_as (mv_params o) a (mv_text o).2.

(** [memo], [only]: what the contract does not use *)
Definition tok_text (memo : option string) (only : option bool) (o : top) : string * string :=
  let m := ("memo", or_null quote memo) in
  match o with
  | TSetOwner a => ("set_owner_id", obj [("owner_id", quote a)])
  | TAddMinter a => ("add_minter", obj [("account_id", quote a)])
  | TRemoveMinter a => ("remove_minter", obj [("account_id", quote a)])
  | TMint n => ("ft_mint", obj [("amount", big n); m])
  | TBurn n => ("ft_burn", obj [("amount", big n); m])
  | TTransfer a n => ("ft_transfer", obj [("receiver_id", quote a); ("amount", big n); m])
  | TTransferCall a n s => ("ft_transfer_call", obj [("receiver_id", quote a); ("amount", big n); m; ("msg", quote s)])
  | TStorageDeposit a => ("storage_deposit", obj [("account_id", or_null quote a); ("registration_only", or_null yes_no only)])
  | TStorageWithdraw n => ("storage_withdraw", obj [("amount", or_null big n)])
  | TUnregister b => ("storage_unregister", obj [("force", match b, only with false, None => "null" | _, _ => yes_no b end)])
  | TResolve a b n _ => ("ft_resolve_transfer", obj [("sender_id", quote a); ("receiver_id", quote b); ("amount", big n)])
  end.
Definition tok_params (o : top) : list (string * ty) :=
  match o with
  | TSetOwner _ => [("owner_id", TAcc)]
  | TAddMinter _ | TRemoveMinter _ => [("account_id", TAcc)]
  | TMint _ | TBurn _ => [("amount", U128); ("memo", TOpt TStr)]
  | TTransfer _ _ => [("receiver_id", TAcc); ("amount", U128); ("memo", TOpt TStr)]
  | TTransferCall _ _ _ => [("receiver_id", TAcc); ("amount", U128); ("memo", TOpt TStr); ("msg", TStr)]
  | TStorageDeposit _ => [("account_id", TOpt TAcc); ("registration_only", TOpt TBool)]
  | TStorageWithdraw _ => [("amount", TOpt U128)]
  | TUnregister _ => [("force", TOpt TBool)]
  | TResolve _ _ _ _ => [("sender_id", TAcc); ("receiver_id", TAcc); ("amount", U128)]
  end.
Definition tok_typed (o : top) : Prop :=
  match o with
  | TSetOwner a | TAddMinter a | TRemoveMinter a => account_id a
  | TMint n | TBurn n => n < 2 ^ 128
  | TTransfer a n | TTransferCall a n _ => account_id a /\ n < 2 ^ 128
  | TStorageDeposit (Some a) => account_id a
  | TStorageWithdraw (Some n) => n < 2 ^ 128
  | TResolve _ _ _ _ => False
  | _ => True
  end.
Definition tok_means (m a : string) (o : top) : Prop :=
  tok_typed o /\ exists memo only, m = (tok_text memo only o).1 /\ reads_as (tok_params o) a (tok_text memo only o).2.

Definition content_text (ct : content) : list (string * string) :=
  [("title", quote (ct_title ct)); ("short_description", quote (ct_short ct)); ("body", quote (ct_body ct));
   ("data", quote (ct_data ct)); ("extra", quote (ct_extra ct))].
Definition board_text (o : mop) : string * string :=
  match o with
  | UpdateOpen b => ("update_open_for_new_mpips", obj [("new_value", yes_no b)])
  | UpdateOperatorRole a => ("update_operator_role", obj [("new_value", quote a)])
  | UpdateAdminRole a => ("update_admin_role", obj [("new_value", quote a)])
  | PayToAccount n a => ("pay_to_account", obj [("amount", big n); ("to", quote a)])
  | UpdateMetaVoteAddress a => ("update_meta_vote_contract_address", obj [("new_meta_vote_contract_address", quote a)])
  | UpdateVotingPeriod n => ("update_voting_period", obj [("new_value", big n)])
  | UpdateMinMeta n => ("update_min_meta_amount", obj [("new_value", big n)])
  | UpdateMinVp n => ("update_min_voting_power_amount", obj [("new_value", big n)])
  | UpdateStorage n => ("update_mpip_storage_near", obj [("new_value", big n)])
  | UpdateQuorumFloor n => ("update_quorum_floor", obj [("new_value", pretty n)])
  | StartVoting i => ("start_voting_period", obj [("mpip_id", pretty i)])
  | CreateProposal ct => ("create_proposal", obj (content_text ct))
  | CancelProposal i => ("cancel_proposal", obj [("mpip_id", pretty i)])
  | UpdateProposal i ct => ("update_proposal", obj (("mpip_id", pretty i) :: content_text ct))
  | VoteProposal i v m =>
      ("vote_proposal",
       obj [("mpip_id", pretty i); ("vote", match v with VAgainst => """Against""" | VFor => """For""" | VAbstain => """Abstain""" end);
            ("memo", quote m)])
  | RemoveVoteProposal i => ("remove_vote_proposal", obj [("mpip_id", pretty i)])
  | ProcessVotingStatus i => ("process_voting_status", obj [("mpip_id", pretty i)])
  end.
Definition board_params (o : mop) : list (string * ty) :=
  let texts := [("title", TStr); ("short_description", TStr); ("body", TStr); ("data", TStr); ("extra", TStr)] in
  match o with
  | UpdateOpen _ => [("new_value", TBool)]
  | UpdateOperatorRole _ | UpdateAdminRole _ => [("new_value", TAcc)]
  | PayToAccount _ _ => [("amount", U128); ("to", TAcc)]
  | UpdateMetaVoteAddress _ => [("new_meta_vote_contract_address", TAcc)]
  | UpdateVotingPeriod _ => [("new_value", TDec U64_SIZE)]
  | UpdateMinMeta _ | UpdateMinVp _ | UpdateStorage _ => [("new_value", U128)]
  | UpdateQuorumFloor _ => [("new_value", U16)]
  | StartVoting _ | CancelProposal _ | RemoveVoteProposal _ | ProcessVotingStatus _ => [("mpip_id", U32)]
  | CreateProposal _ => texts
  | UpdateProposal _ _ => ("mpip_id", U32) :: texts
  | VoteProposal _ _ _ => [("mpip_id", U32); ("vote", TEnum ["Against"; "For"; "Abstain"]); ("memo", TStr)]
  end.
Definition board_typed (o : mop) : Prop :=
  MpipSpecSized.sized_mop o /\
  match o with
  | UpdateOperatorRole a | UpdateAdminRole a | UpdateMetaVoteAddress a | PayToAccount _ a => account_id a
  | StartVoting i | CancelProposal i | UpdateProposal i _ | VoteProposal i _ _ | RemoveVoteProposal i | ProcessVotingStatus i => i < 2 ^ 32
  | _ => True
  end.
Definition board_means (m a : string) (o : mop) : Prop := board_typed o /\ m = (board_text o).1 /\ reads_as (board_params o) a (board_text o).2.

Definition kv_text (o : kvop) : string * string :=
  match o with
  | KSetOperator a => ("set_operator_id", obj [("operator_id", quote a)])
  | KSetOwner a => ("set_owner_id", obj [("owner_id", quote a)])
  | KSet k v => ("set_value", obj [("key", quote k); ("value", quote v)])
  | KSetAll l => ("set_values", obj [("kv_array", arr (fun p => two (quote p.1) (quote p.2)) l)])
  | KRemove k => ("remove_value", obj [("key", quote k)])
  | KNew a b => ("new", obj [("owner_id", quote a); ("operator_id", quote b)])
  end.
Definition kv_params (o : kvop) : list (string * ty) :=
  match o with
  | KSetOperator _ => [("operator_id", TAcc)]
  | KSetOwner _ => [("owner_id", TAcc)]
  | KSet _ _ => [("key", TStr); ("value", TStr)]
  | KSetAll _ => [("kv_array", TVec (TTup [TStr; TStr]))]
  | KRemove _ => [("key", TStr)]
  | KNew _ _ => [("owner_id", TAcc); ("operator_id", TAcc)]
  end.
Definition kv_typed (o : kvop) : Prop :=
  match o with KSetOperator a | KSetOwner a => account_id a | KNew _ _ => False | _ => True end.
Definition kv_means (m a : string) (o : kvop) : Prop := kv_typed o /\ m = (kv_text o).1 /\ reads_as (kv_params o) a (kv_text o).2.

(** ** What the chain guarantees: the caller is an account, u128 deposits, u64 times.  The contracts call each other only by receipts. *)
Definition natural (x0 : net) (e : tev) : Prop :=
  match e with
  | ZCall f _ _ _ _ d ts => outside x0 f /\ d < 2 ^ 128 /\ ts < 2 ^ 64
  | ZRun _ ts _ _ => ts < 2 ^ 64
  end.
(** the call a text stands for *)
Definition stands (x0 : net) (e : tev) (e' : xev) : Prop :=
  match e with
  | ZCall f g to m a d ts =>
      let c := mkCtx f g d ts json_pair json_claims in
      match e' with
      | XMv (c', o) => to = self_id (n_mv x0) /\ mv_means m a o /\ c' = c
      | XTok k (c', o) => to = t_self (ntok x0 k) /\ tok_means m a o /\ c' = c
      | XBoard c' o => to = m_self (n_board x0) /\ board_means m a o /\ c' = c
      | XRun _ _ _ _ => False
      end
  | ZRun i ts fail alt => e' = XRun i (mkCtx EmptyString EmptyString 0 ts json_pair json_claims) fail alt
  end.
Definition zlike (x0 : net) (e : tev) (l : list yev) : Prop :=
  (exists e', stands x0 e e' /\ like e' l) \/ ((forall e', ~ stands x0 e e') /\ l = []).
Definition tev_ts (e : tev) : N := match e with ZCall _ _ _ _ _ _ ts | ZRun _ ts _ _ => ts end.
Definition zeach (x0 : net) (P : yev -> Prop) (e : tev) : Prop := forall e', stands x0 e e' -> each P e'.
(** ** What the voting contract and the proposal contract are called with: the texts of the history, and receipts of the other contracts *)
Definition justified (x0 : net) (tr : list tev) (z : call) : Prop :=
  (exists e, In e tr /\ stands x0 e (XMv z)) \/
  (exists k s n m, z.2 = FtOnTransfer s n m /\ c_pred z.1 = t_self (ntok x0 k) /\ c_deposit z.1 = 0) \/
  (exists v n ok, (z.2 = AfterMp v n ok \/ z.2 = AfterSt v n ok) /\ c_pred z.1 = self_id (n_mv x0) /\ c_deposit z.1 = 0).
Definition board_justified (x0 : net) (tr : list tev) (h : mevent) : Prop :=
  match h with MCall c o => exists e, In e tr /\ stands x0 e (XBoard c o) | MAnswer _ _ _ => True end.
