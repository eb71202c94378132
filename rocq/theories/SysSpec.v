(** SysSpec.v -- C92: vocabulary for claims about the whole system. *)

From Verif Require Export Sys GovSpec WorldSpec MVSpecSmall.
From Verif Require Import MVPos.

(** all four contracts just deployed, the proposal contract asking this voting contract *)
Definition deployed (y : system) : Prop :=
  exists b, wstart (y_world y) /\ mpip_new b = Ok (y_board y) /\ y_asks y = [] /\ mi_vote b = self_id (w_mv (y_world y)).
Definition ytimed (tr : list yev) : Prop := Sorted N.le (map yev_ts tr).

(** Roles behave: nothing is imported or mirrored, the stNEAR address is not pointed to the mpDAO token, the proposal
    contract keeps asking this voting contract, and no unbonding period below [D] days is allowed. *)
Definition tame (D : N) (y0 : system) (e : yev) : Prop :=
  match e with
  | YWorld e => calm Mp (y_world y0) e /\ match e with EMv (_, UpdateMinUnbond n) => D <= n | _ => True end
  | YCall _ (UpdateMetaVoteAddress a) => a = self_id (w_mv (y_world y0))
  | _ => True
  end.

(** an own vote on the proposal is still being counted *)
Definition voting (y : system) (id : N) (v : string) : Prop :=
  exists p oa vt memo, In (p, oa) (y_asks y) /\ pd_kind p = KVote id v vt memo.
(** Nobody votes on a proposal while an own vote on it is still being counted. *)
Definition one_at_a_time (y0 : system) (tr : list yev) : Prop :=
  forall t1 c id vt memo t2, tr = t1 ++ YCall c (VoteProposal id vt memo) :: t2 -> ~ voting (yrun y0 t1) id (c_pred c).

(** Less than [D] days have passed at [T] since anybody voted on [id]. *)
Definition recent (D T : N) (id : N) (tr : list yev) : Prop :=
  Forall (fun e => yev_ts e / 1000000 <= T) tr /\
  forall c vt memo, In (YCall c (VoteProposal id vt memo)) tr -> T < now_ms c + D * 86400000.

(** the mpDAO that the voting contract holds in the token's ledger *)
Definition treasury (y : system) : N := ft_balance_of (w_mp (y_world y)) (self_id (w_mv (y_world y))).
(** the power [v] voted with on [id] *)
Definition power_cast (y : system) (id : N) (v : string) : N :=
  match get_my_vote (y_board y) v id with Ok (Some (_, u)) => vt_power u | _ => 0 end.
Definition all_votes (y : system) (id : N) : N :=
  tally (y_board y) id VFor + tally (y_board y) id VAgainst + tally (y_board y) id VAbstain.
(** no position goes past the longest period configured at the start *)
Definition in_bounds (e : yev) : Prop := match e with YWorld (EMv x) => quiet_bounds x | _ => True end.
