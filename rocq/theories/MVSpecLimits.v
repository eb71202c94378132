(** MVSpecLimits.v -- vocabulary of C58-C61: imports, minimum deposits, list of accounts, EVM addresses. *)

From Verif Require Export MVSpecMoney MVSpecVote.

(** calls after which a locked amount may grow by less than the minimum deposit *)
Definition exempt_from_minimum (x : call) : bool :=
  match x.2 with
  | Relock _ _ _ | ExtendDays _ _ | MigrationCreateLps _ _ _ | MirrorLps _ _ => true
  | _ => false
  end.

(** the positions imported by the call all have a positive amount *)
Definition imports_positive (x : call) : Prop :=
  match x.2 with
  | MirrorLps _ l => Forall (fun lp => 0 < lp.2) l
  | MigrationCreateLps _ l _ => Forall (fun lp => 10 ^ 18 <= lp.1) l
  | _ => True
  end.

(** no position of amount zero *)
Definition no_empty_position (s : state) : Prop :=
  forall now vid j, In j (get_all_locking_positions now s vid) -> 0 < j_amount j.

(** all mpDAO of an account *)
Definition holdings (s : state) (vid : string) : N := raw_balance s vid + positions_amount s vid.

(** calls that can put an account on the list *)
Definition can_register (x : call) : bool :=
  match x.2 with
  | FtOnTransfer _ _ _ | MigrationCreateLps _ _ _ | MirrorLps _ _ | AfterMp _ _ false => true
  | _ => false
  end.
Definition is_withdrawal (x : call) : bool :=
  match x.2 with Withdraw _ _ | WithdrawAll => true | _ => false end.
