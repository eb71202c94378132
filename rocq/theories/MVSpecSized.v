(** MVSpecSized.v -- C88: the numbers of the ledger and of the calls, and the Rust types that hold them. *)

From Verif Require Export MVSpecStep.

Definition fits8 (n : N) : Prop := n < 2 ^ 8.
Definition fits16 (n : N) : Prop := n < 2 ^ 16.
Definition fits64 (n : N) : Prop := n < 2 ^ 64.
Definition fits128 (n : N) : Prop := n < 2 ^ 128.

(** what arrives in a call: its time and deposit, and the integer parameters of the method (lib.rs, deposit.rs, withdraw.rs,
    evm_delegate.rs: U128String and u128 amounts, u16 days, u64 timestamp) *)
Definition sized_op (o : op) : Prop :=
  match o with
  | UpdateRegCost n | ClaimStnear n | Vote n _ _ | Rebalance n _ _ | DelegatedClaim _ n | VoteDelegated _ n _ _ | Withdraw _ n
  | AfterMp _ n _ | AfterSt _ n _ | UnlockPartial _ n | FtOnTransfer _ n _ => fits128 n
  | ClaimAndLock n d | RelockFromBalance d n => fits128 n /\ fits16 d
  | Relock _ d n => fits16 d /\ fits128 n
  | RelockPartial _ m d n => fits128 m /\ fits16 d /\ fits128 n
  | ExtendDays _ d | UpdateMinUnbond d | UpdateMaxUnbond d => fits16 d
  | SetLockIn t i _ => fits64 t /\ fits16 i
  | MigrationCreateLps _ l _ => Forall (fun p => fits128 p.1 /\ fits16 p.2) l
  | MirrorLps _ l => Forall (fun p => fits16 p.1 /\ fits128 p.2) l
  | _ => True
  end.
Definition sized_call (x : call) : Prop := fits64 (c_ts x.1) /\ fits128 (c_deposit x.1) /\ sized_op x.2.

(** what is stored: lib.rs:28-66, voter.rs:16-21, locking_position.rs:6-11; also the end of an unbonding, a sum
    of u64 numbers computed at locking_position.rs:36-48 and lib.rs:382, 445 *)
Definition sized_pos (p : pos) : Prop :=
  fits128 (p_amount p) /\ fits16 (p_days p) /\ fits128 (p_vp p) /\
  match p_since p with Some t => fits64 t /\ fits64 (ends p t) | None => True end.
Definition sized_acct (a : acct) : Prop :=
  fits128 (a_bal a) /\ Forall sized_pos (a_pos a) /\ fits128 (a_free a) /\ fits128 (a_used a) /\ forall x y, fits128 (a_votes a x y).
Definition sized (L : ledger) : Prop :=
  fits16 (l_min_days L) /\ fits16 (l_max_days L) /\ fits128 (l_min_deposit L) /\ fits8 (l_max_pos L) /\ fits8 (l_max_addr L) /\
  fits128 (l_fee L) /\ (let '(t, _, i) := l_hold L in fits64 t /\ fits16 i) /\
  (forall w, sized_acct (l_acct L w)) /\ fits128 (l_power L) /\ (forall x y, fits128 (l_tally L x y)) /\
  (forall w, fits128 (l_mp L w)) /\ fits128 (l_mp_total L) /\ fits128 (l_mp_ever L) /\
  (forall w, fits128 (l_st L w)) /\ fits128 (l_st_total L) /\ fits128 (l_st_ever L).
(** and what is sent *)
Definition sized_eff (f : eff) : Prop := match f with PayMp _ n | PaySt _ _ _ n => fits128 n end.
