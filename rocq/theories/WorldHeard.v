(** WorldHeard.v -- the calls the voting contract receives in the world of World.v. *)

From Verif Require Export World.

(** The call the voting contract receives at an event, if any: a call of a user (not of one of the three contracts,
    as in [wstep]), a delivery by a token (near-contract-standards ft_transfer_call, World.v) to
    deposit.rs:13-65 ft_on_transfer, or the callback of a payment (withdraw.rs:78-98, 125-143). *)
Definition heard_at (w : world) (ev : wev) : list call :=
  match ev with
  | EMv x => if is_contract w (c_pred x.1) then [] else [x]
  | ETok _ _ => []
  | ERun i c fail _ =>
      match w_pend w !! i with
      | Some (PDeliver k sender receiver amount msg) =>
          if bool_decide (receiver = self_id (w_mv w)) && negb fail
          then [(called_by c (t_self (tok_of w k)) 0, FtOnTransfer sender amount msg)] else []
      | Some (PBack cb source amount ok) =>
          if fail then []
          else [(called_by c (self_id (w_mv w)) 0, match cb with Mp => AfterMp source amount ok | St => AfterSt source amount ok end)]
      | _ => []
      end
  end.
(** all the calls received in the course of the events, in order *)
Fixpoint heard (w : world) (evs : list wev) : list call :=
  match evs with [] => [] | ev :: r => heard_at w ev ++ heard (wstep w ev) r end.
