(** MVSpecExit.v -- vocabulary of the specification of leaving the contract (C57). *)

From Verif Require Export MVSpecVote.

(** The account itself never unlocks a position that is already unlocking. *)
Definition own_unlocks_locked (vid : string) (s : state) (x : call) : Prop :=
  c_pred x.1 = vid -> unlocks_locked s x.

(** A call by the account at time [t] that withdraws a vote or unlocks a position. *)
Definition exit_ctx (vid : string) (t : N) : ctx := mkCtx vid vid 0 t (fun _ => None) (fun _ => None).
Definition exit_call (vid : string) (t : N) (x : call) : Prop :=
  x.1 = exit_ctx vid t /\ ((exists ad ob, x.2 = Unvote ad ob) \/ (exists i, x.2 = Unlock i)).

(** 3600 days in nanoseconds *)
Definition days_3600 : N := 3600 * 86400 * 1000000000.
