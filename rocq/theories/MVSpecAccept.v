(** MVSpecAccept.v -- when a call of the voting contract must be accepted (C71), in terms of its
    views.  No helper of the model's state-changing functions is used. *)

From Verif Require Export MVSpecVote MVSpecMoney.

(** the panics of checked arithmetic that are not a refusal by the contract's rules: a sum or product
    does not fit its 128 bits.  A subtraction below zero is not among them. *)
Definition too_big (m : string) : Prop :=
  In m ["attempt to add with overflow"; "attempt to multiply with overflow";
        "Integer overflow when casting to u128"; "vp overflow"].

(** a locked position of [vid] for [days] days exists *)
Definition has_locked (s : state) (vid : string) (days : N) : Prop :=
  exists j, In j (get_all_locking_positions 0 s vid) /\ j_is_locked j = true /\ j_days j = days.
Definition lps_count (s : state) (vid : string) : N := N.of_nat (length (get_all_locking_positions 0 s vid)).

(** [vid] may lock tokens for [days] days when [freed] of its positions are removed first *)
Definition can_lock (s : state) (vid : string) (days freed : N) : Prop :=
  let i := get_contract_info s in
  ci_min_unbond i <= days <= ci_max_unbond i /\ days < 3600 /\
  (has_locked s vid days \/ lps_count s vid < ci_max_lps i + freed).

(** end of the unbonding of a position, in milliseconds *)
Definition free_at (j : lp_json) (started : N) : N := started + j_days j * 86400000.
(** an unbonding position can be locked again only for longer than it still has to wait *)
Definition long_enough (now : N) (j : lp_json) (started days : N) : Prop :=
  now < free_at j started -> free_at j started < now + days * 86400000.

(** [vid] may put [vp] more power on [addr] *)
Definition can_vote (s : state) (vid : string) (vp : N) : Prop :=
  vid ∈ voter_ids s /\ vp <= get_available_voting_power s vid /\
  exists voted, NoDup voted /\ (forall a, In a voted <-> exists o, 0 < votes_or0 s vid a o) /\
    N.of_nat (length voted) <= ci_max_vps (get_contract_info s).
(** [vid] may take its votes back *)
Definition can_unvote (s : state) (now : N) (vid addr obj : string) : Prop :=
  0 < votes_or0 s vid addr obj /\ ~ lock_in_applies s now addr obj.

(** the balance after collecting the unlocked positions among [l] *)
Definition collected (now : N) (s : state) (vid : string) (l : nat -> Prop) `{!forall i, Decision (l i)} : N :=
  raw_balance s vid
  + sum_by (fun j => if j_is_unlocked j && bool_decide (l (j_index j)) then j_amount j else 0)
      (get_all_locking_positions now s vid).

(** slicing [msg] at byte [n] does not cut a character *)
Definition sliceable (n : nat) (msg : string) : Prop := (n <= String.length msg)%nat -> char_boundary n msg = true.

(** The call [o] in context [c] is allowed in state [s]. *)
Definition allowed (c : ctx) (s : state) (o : op) : Prop :=
  let i := get_contract_info s in
  let me := c_pred c in
  let now := now_ms c in
  let d := c_deposit c in
  match o with
  | SetStnear _ | SetOperator _ | SetOwner _ | UpdateMinUnbond _ | UpdateMaxUnbond _ | SetPrevGov _ =>
      d = 1 /\ me = ci_owner i
  | UpdateRegCost _ => d = 0 /\ me = ci_owner i
  | OpMultiSetAirdrop _ | SetLockIn _ _ _ => d = 0 /\ me = ci_operator i
  | UpdateAirdrop _ => d = ci_reg_cost i
  | ClaimAndLock amount days =>
      d = 0 /\ ci_min_deposit i <= amount /\ amount <= get_claimable_mpdao s me /\
      me ∈ voter_ids s /\ can_lock s me days 0
  | ClaimStnear amount => d = 0 /\ amount <= get_claimable_stnear s me
  | Unlock k =>
      d = 0 /\ exists j, get_locking_position now s k me = Some j /\
        j_vp j <= get_available_voting_power s me
  | UnlockPartial k amount =>
      d = 0 /\ exists j, get_locking_position now s k me = Some j /\
        ((amount = j_amount j /\ j_vp j <= get_available_voting_power s me) \/
         (amount < j_amount j /\ ci_min_deposit i <= j_amount j - amount /\
          1000000 <= amount /\ 1000000 <= j_amount j - amount /\
          lp_power (j_days j, amount) <= j_vp j /\
          lp_power (j_days j, amount) <= get_available_voting_power s me /\
          lps_count s me < ci_max_lps i))
  | ExtendDays k days =>
      d = 0 /\ exists j, get_locking_position now s k me = Some j /\ j_is_locked j = true /\
        j_days j < days /\ days < 3600 /\ j_vp j <= lp_power (days, j_amount j)
  | Relock k days afb =>
      d = 0 /\ afb <= raw_balance s me /\
      exists j t, get_locking_position now s k me = Some j /\ j_unl j = Some t /\
        long_enough now j t days /\ can_lock s me days 1
  | RelockPartial k afp days afb =>
      d = 0 /\ afb <= raw_balance s me /\ ci_min_deposit i <= afb + afp /\
      exists j t, get_locking_position now s k me = Some j /\ j_unl j = Some t /\ afp <= j_amount j /\
        long_enough now j t days /\
        ((now < free_at j t /\ afp < j_amount j /\ can_lock s me days 0) \/
         (free_at j t <= now /\ can_lock s me days 1))
  | RelockFromBalance days amount =>
      d = 0 /\ me ∈ voter_ids s /\ amount <= raw_balance s me /\ ci_min_deposit i <= amount /\
      can_lock s me days 0
  | ClearPositions l =>
      d = 0 /\ l <> [] /\ forall k, k ∈ l -> is_Some (get_locking_position now s k me)
  | Vote vp _ _ => d = 0 /\ can_vote s me vp
  | Rebalance vp addr obj =>
      d = 0 /\ 0 < votes_or0 s me addr obj /\ vp <> votes_or0 s me addr obj /\
      (vp = 0 -> ~ lock_in_applies s now addr obj) /\
      vp <= votes_or0 s me addr obj + get_available_voting_power s me
  | Unvote addr obj => d = 0 /\ can_unvote s now me addr obj
  | MigrationCreateLps vid l _ =>
      d = 0 /\ me = ci_prev_gov i /\
      Forall (fun lp => ci_min_unbond i <= lp.2 <= ci_max_unbond i /\ lp.2 < 3600) l /\
      (* room for the periods for which there is no locked position yet *)
      exists new, NoDup new /\ (forall k, In k new <-> In k l.*2 /\ ~ has_locked s vid k) /\
        lps_count s vid + N.of_nat (length new) <= ci_max_lps i
  | MirrorLps ext l =>
      d = 0 /\ me = ci_operator i /\ NoDup l.*1 /\ N.of_nat (length l) <= ci_max_lps i /\
      Forall (fun lp => lp.1 < 3600) l
  | PreDelegate evm _ => d = 1 /\ ~ occurs "." evm
  | OpRemovePre _ | OpConfirm _ => d = 1 /\ me = ci_operator i
  | DelegatedClaim evm amount =>
      get_delegate s evm = Some me /\ amount <= get_claimable_stnear s (evm_account evm)
  | VoteDelegated evm vp _ _ =>
      d = 0 /\ get_delegate s evm = Some me /\ can_vote s (evm_account evm) vp
  | UnvoteDelegated evm addr obj =>
      d = 0 /\ get_delegate s evm = Some me /\ can_unvote s now (evm_account evm) addr obj
  | RemoveDelegated evm => d = 1 /\ get_delegate s evm = Some me
  | Withdraw l amount =>
      d = 1 /\ (forall k, k ∈ l -> is_Some (get_locking_position now s k me)) /\
      0 < collected now s me (.∈ l) /\ amount <= collected now s me (.∈ l)
  | WithdrawAll => d = 1 /\ 0 < collected now s me (fun _ => True)
  | AfterMp _ _ _ => d = 0 /\ me = self_id s
  | AfterSt _ amount ok => d = 0 /\ me = self_id s /\ (ok = true \/ 0 < amount)
  | FtOnTransfer sender amount msg =>
      d = 0 /\ sliceable 11 msg /\
      match after_prefix "for-claims:" msg with
      | Some rest =>
          exists l, c_json_claims c rest = Some l /\ Forall (fun p => 0 < p.2 < 2 ^ 64) l /\
            ((me = ci_mpdao i /\ amount = mp_unit * sum_by snd l) \/
             (me <> ci_mpdao i /\ me = ci_stnear i /\ amount = st_unit * sum_by snd l))
      | None =>
          me = ci_mpdao i /\ ci_min_deposit i <= amount /\ sliceable 1 msg /\
          exists vid days, can_lock s vid days 0 /\
            match after_prefix "[" msg with
            | Some _ => c_json_pair c msg = Some (vid, days) /\ days < 2 ^ 16 /\ sender = ci_owner i
            | None => parse_u16 msg = Some days /\ vid = sender
            end
      end
  end.

(** lists of positions name each position once *)
Definition named_once (o : op) : Prop :=
  match o with ClearPositions l | Withdraw l _ => NoDup l | _ => True end.

(** calls that add no tokens to a position or a balance *)
Definition adds_no_tokens (o : op) : bool :=
  match o with
  | ClaimAndLock _ _ | UnlockPartial _ _ | ExtendDays _ _ | Relock _ _ _ | RelockPartial _ _ _ _
  | RelockFromBalance _ _ | ClearPositions _ | MigrationCreateLps _ _ _ | MirrorLps _ _
  | Withdraw _ _ | WithdrawAll | AfterMp _ _ _ | AfterSt _ _ _ | FtOnTransfer _ _ _ => false
  | _ => true
  end.
