(** GovSpec.v -- vocabulary for claims about the proposal contract together with meta-vote (C65-C67). *)

From Coq Require Export Sorting.Sorted.
From Verif Require Export Gov MVSpecLimits MpipSpec.

Definition gtimed (tr : list gev) : Prop := Sorted N.le (map gev_ts tr).
(** the administrator leaves the registered voting contract alone *)
Definition keeps_link (mv : string) (x : gev) : Prop :=
  match x with GCall _ (UpdateMetaVoteAddress a) => a = mv | _ => True end.
(** Both contracts are deployed and linked, and stay so. *)
Definition linked (a : init_args) (b : minit) (g0 : gov) (tr : list gev) : Prop :=
  exists s0 m0, mv_new a = Ok s0 /\ mpip_new b = Ok m0 /\ g0 = ginit s0 m0 /\
    mi_vote b = i_self a /\ Forall (keeps_link (i_self a)) tr.

(** tokens in locked positions *)
Definition locked_amount (s : state) (vid : string) : N :=
  sum_by (fun j => if j_is_locked j then j_amount j else 0) (get_all_locking_positions 0 s vid).
(** every unbonding period that can be chosen or imported is at least [D] days *)
Definition periods_at_least (D : N) (x : gev) : Prop :=
  match x with
  | GVote (_, UpdateMinUnbond n) => D <= n
  | GVote (_, MirrorLps _ l) => Forall (fun lp : N * N => D <= lp.1) l
  | _ => True
  end.
(** the operator does not overwrite the positions of [v] *)
Definition not_mirrored (v : string) (x : gev) : Prop :=
  match x with GVote (_, MirrorLps e _) => e +:+ ".evmp.near" <> v | _ => True end.
