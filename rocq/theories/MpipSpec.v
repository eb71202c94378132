(** MpipSpec.v -- vocabulary of the specifications about proposals (C38-C52), written against the
    public views of Mpip.v. *)

From Coq Require Export Sorting.Sorted.
From Verif Require Export Mpip.

(** [w] is reached from a fresh contract by the events [tr]. *)
Definition mreach (w : world) (tr : list mevent) : Prop :=
  exists a s0, mpip_new a = Ok s0 /\ w = wrun (winit s0) tr.

(** Block time does not go back. *)
Definition mtimed (tr : list mevent) : Prop := Sorted N.le (map event_ts tr).

(** A proposal's tally of votes of type [t], and the power of its listed votes of that type. *)
Definition tally (s : mstate) (id : N) (t : vote_type) : N :=
  let '(f, ag, ab, _) := get_proposal_votes s id in
  match t with VFor => f | VAgainst => ag | VAbstain => ab end.
Definition listed (s : mstate) (id : N) : list vote_json :=
  let '(_, _, _, l) := get_proposal_votes s id in l.
Definition recorded (s : mstate) (id : N) (t : vote_type) : N :=
  sum_by (fun j : vote_json => if decide (vt_type j.2 = t) then vt_power j.2 else 0) (listed s id).

(** A property of (world, next event) that holds all along a history. *)
Fixpoint walong (Q : world -> mevent -> Prop) (w : world) (tr : list mevent) : Prop :=
  match tr with
  | [] => True
  | x :: tr' => Q w x /\ walong Q (wstep w x) tr'
  end.

(** Vote callbacks of [v] on [id] in flight. *)
Definition vote_in_flight (w : world) (id : N) (v : string) : Prop :=
  exists p vt memo, In p (w_pend w) /\ pd_kind p = KVote id v vt memo.
(** Nobody votes on a proposal while an own earlier vote on it is still in flight. *)
Definition no_double_vote (w : world) (x : mevent) : Prop :=
  match x with
  | MCall c (VoteProposal id _ _) => ~ vote_in_flight w id (c_pred c)
  | _ => True
  end.

(** Start callbacks in flight; nobody starts a proposal twice. *)
Definition start_in_flight (w : world) (id : N) : Prop :=
  exists p, In p (w_pend w) /\ pd_kind p = KStart id.
Definition no_double_start (w : world) (x : mevent) : Prop :=
  match x with
  | MCall c (StartVoting id) =>
      ~ start_in_flight w id /\
      (forall p d, get_proposal (w_m w) id = Ok p -> pr_start p = Some d -> now_ms c <> d)
  | _ => True
  end.

(** Power of the positions reported as locked. *)
Definition locked_sum (l : list lpj) : N := sum_by (fun j => if jp_is_locked j then jp_vp j else 0) l.

(** The call succeeds. *)
Definition mok (c : ctx) (s : mstate) (o : mop) : Prop := exists r, mcall c s o = Ok r.

(** Number of proposals, and the histories the 32-bit ids cover. *)
Definition n_proposals (s : mstate) : nat := length (m_proposals s).
Definition few_proposals (s : mstate) : Prop := N.of_nat (n_proposals s) < 2 ^ 32.
Definition created_by (s : mstate) (a : string) (id : N) : bool :=
  match get_proposal s id with Ok p => bool_decide (pr_creator p = a) | Panic _ => false end.

(** The role whose signature a call asks for (C47). *)
Definition admin_call (o : mop) : bool :=
  match o with
  | UpdateOpen _ | UpdateOperatorRole _ | UpdateAdminRole _ | PayToAccount _ _ | UpdateMetaVoteAddress _ => true
  | _ => false
  end.
Definition operator_call (o : mop) : bool :=
  match o with
  | UpdateVotingPeriod _ | UpdateMinMeta _ | UpdateMinVp _ | UpdateStorage _ | UpdateQuorumFloor _
  | ProcessVotingStatus _ => true
  | _ => false
  end.
(** What only the two roles may change. *)
Definition settings (s : mstate) :=
  (m_admin s, m_operator s, m_meta_vote s, m_open s, (m_period s, m_min_meta s, m_min_vp s, m_storage s, m_floor s)).
(** [p] is in its voting window at [now]. *)
Definition in_window (now : N) (p : mpip) : Prop :=
  exists d e, pr_start p = Some d /\ pr_end p = Some e /\ d <= now <= e /\
    pr_draft p = false /\ pr_canceled p = false /\ pr_executed p = false.

(** The state a proposal [p] should be reported in at [now] (C62). *)
Definition passed (s : mstate) (id : N) (p : mpip) : Prop :=
  exists q, pr_quorum p = Some q /\ q <= tally s id VFor + tally s id VAbstain /\ tally s id VAgainst < tally s id VFor.
Definition window_over (now : N) (p : mpip) : Prop :=
  exists e, pr_end p = Some e /\ e < now /\ pr_draft p = false /\ pr_canceled p = false /\ pr_executed p = false.
Definition reported (now : N) (s : mstate) (id : N) (p : mpip) (st : mpip_state) : Prop :=
  match st with
  | StExecuted => pr_executed p = true
  | StCanceled => pr_canceled p = true /\ pr_executed p = false
  | StDraft => pr_draft p = true /\ pr_canceled p = false /\ pr_executed p = false
  | StVotingProcess => in_window now p
  | StAccepted => window_over now p /\ passed s id p
  | StRejected => window_over now p /\ ~ passed s id p
  | StActive => False
  end.

(** Pages of the list of proposals (C63): the proposals with the given ids *)
Definition proposals_of (s : mstate) (ids : list nat) : res (list mpip) :=
  mapMr (fun i => get_proposal s (N.of_nat i)) ids.
(** all pages of size [k], one after the other, until [m] pages are read *)
Fixpoint walk_proposals (s : mstate) (k m : nat) : res (list mpip) :=
  match m with
  | O => Ok []
  | S m' => l ← walk_proposals s k m'; o ← get_proposals s (m' * k) k; Ok (l ++ default [] o)
  end.
