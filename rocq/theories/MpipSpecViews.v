(** MpipSpecViews.v -- what every view of the proposal contract answers (C75), in terms of the board of
    MpipSpecStep.v. *)

From Verif Require Export MpipSpecStep.

(** the state of proposal [p] at [now] *)
Definition waiting (now : N) (p : mpip) : Prop := forall t, pr_start p = Some t -> now <= t.
Definition state_at (now : N) (B : board) (id : N) (p : mpip) (st : mpip_state) : Prop :=
  let open := pr_executed p = false /\ pr_canceled p = false in
  let over := open /\ pr_draft p = false /\ ~ voting now p /\ ~ waiting now p in
  let won := (exists q, pr_quorum p = Some q /\ q <= turnout B id) /\ b_tally B id VAgainst < b_tally B id VFor in
  match st with
  | StExecuted => pr_executed p = true
  | StCanceled => pr_executed p = false /\ pr_canceled p = true
  | StDraft => open /\ pr_draft p = true
  | StVotingProcess => voting now p
  | StActive => open /\ pr_draft p = false /\ ~ voting now p /\ waiting now p
  | StAccepted => over /\ turnout B id < 2 ^ 128 /\ won
  | StRejected => over /\ turnout B id < 2 ^ 128 /\ ~ won
  end.

Definition proposal_views (now : N) (s : mstate) (B : board) : Prop :=
  (forall id p, get_proposal s id = Ok p <-> b_prop B id = Some p) /\
  (forall id st, get_proposal_state now s id = Ok st <-> exists p, b_prop B id = Some p /\ state_at now B id p st) /\
  (forall id b, get_proposal_is_active_or_draft now s id = Ok b <->
     exists p, b_prop B id = Some p /\ (b = true <-> editable now p)) /\
  (forall a, get_user_proposals_ids s a = b_made B a) /\ (forall a, get_my_proposals s a = b_made B a) /\
  get_last_proposal_id s = Ok (if b_count B =? 0 then None else Some (b_count B - 1)) /\
  (forall from limit,
     if N.of_nat from <? b_count B
     then exists l, get_proposals s from limit = Ok (Some l) /\ length l = Nat.min limit (N.to_nat (b_count B) - from) /\
            forall i, (i < length l)%nat -> l !! i = b_prop B (N.of_nat (from + i))
     else get_proposals s from limit = Ok None).

Definition vote_views (s : mstate) (B : board) : Prop :=
  (forall id, exists l, get_proposal_votes s id = (b_tally B id VFor, b_tally B id VAgainst, b_tally B id VAbstain, l) /\
     NoDup l.*1 /\ forall v u, In (v, u) l <-> b_ballot B id v = Some u) /\
  (forall id, get_proposal_vote_succeeded s id = true <-> b_tally B id VAgainst < b_tally B id VFor) /\
  (forall c id b, get_quorum_reached c s id = Ok b <->
     (c_signer c = b_admin B \/ c_signer c = b_operator B) /\
     exists p q, b_prop B id = Some p /\ pr_quorum p = Some q /\ turnout B id < 2 ^ 128 /\ (b = true <-> q <= turnout B id)) /\
  (forall v id, has_voted s v id = true <-> b_ballot B id v <> None) /\
  (forall v id, get_my_vote s v id = Ok (option_map (pair v) (b_ballot B id v))) /\
  (forall v, NoDup (map (fun j => vt_mpip j.2) (get_voter_votes s v)) /\
     forall j, In j (get_voter_votes s v) <-> j.1 = v /\ b_ballot B (vt_mpip j.2) v = Some j.2) /\
  (exists l, NoDup l /\ (forall v, In v l <-> exists id, b_ballot B id v <> None) /\
     get_total_voters s = pretty (N.of_nat (length l))) /\
  get_mpip_storage_near s = b_fee B /\ get_quorum_floor s = b_floor B /\ get_proposal_threshold s = b_threshold B /\
  (forall n, check_proposal_threshold s n = true <-> b_threshold B <= n).
