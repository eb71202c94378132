(** MVSpecPrivate.v -- calls that concern one account only (C79).  Nothing of the model's functions is used. *)

From Verif Require Export MVSpecSmall MVSpecStep.

(** the account a call acts on: the caller's, that of an EVM address whose holder delegated it, that of a refunded
    withdrawal or claim, or the one for which a transfer is locked.  Settings, announcements of delegations, reward
    distributions, migration and mirroring are not of this kind. *)
Definition acts_on (x : call) : option string :=
  match x.2 with
  | ClaimAndLock _ _ | ClaimStnear _ | Unlock _ | UnlockPartial _ _ | ExtendDays _ _ | Relock _ _ _
  | RelockPartial _ _ _ _ | RelockFromBalance _ _ | ClearPositions _ | Vote _ _ _ | Rebalance _ _ _ | Unvote _ _
  | Withdraw _ _ | WithdrawAll | UpdateAirdrop _ => Some (c_pred x.1)
  | VoteDelegated evm _ _ _ | UnvoteDelegated evm _ _ | DelegatedClaim evm _ => Some (evm_account evm)
  | AfterMp w _ _ | AfterSt w _ _ => Some w
  | FtOnTransfer sender _ msg =>
      match after_prefix "for-claims:" msg with
      | Some _ => None
      | None => match lock_target x.1 sender msg with Some (w, _) => Some w | None => Some sender end
      end
  | _ => None
  end.

(** the calls of a history that act on [w], in their order *)
Definition mine (w : string) (l : list call) : list call := List.filter (fun x => bool_decide (acts_on x = Some w)) l.

(** tokens a call may bring *)
Definition mp_brought (x : call) : N :=
  match x.2 with FtOnTransfer _ n _ | AfterMp _ n _ => n | _ => 0 end.
Definition st_brought (x : call) : N := match x.2 with AfterSt _ n _ => n | _ => 0 end.

(** what is shown about one account: positions, power, votes, claims, airdrop data *)
Definition same_account (w : string) (L M : ledger) : Prop :=
  same_acct (l_acct L w) (l_acct M w) /\ l_mp L w = l_mp M w /\ l_st L w = l_st M w /\ l_data L w = l_data M w.

(** the answers to the calls acting on [w]: refused, or accepted with these transfers *)
Fixpoint replies (w : string) (s : state) (l : list call) : list (option (list eff)) :=
  match l with
  | [] => []
  | x :: r =>
      let s' := match exec x.1 s x.2 with Ok (s', _) => s' | Panic _ => s end in
      let a := match exec x.1 s x.2 with Ok (_, e) => Some e | Panic _ => None end in
      if decide (acts_on x = Some w) then a :: replies w s' r else replies w s' r
  end.
