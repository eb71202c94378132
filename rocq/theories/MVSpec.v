(** MVSpec.v -- vocabulary of the specifications of the meta-vote contract.
    Everything here is stated with the public views of MVView.v and the calls of a history;
    nothing refers to the internals of the functions. *)

From Coq Require Export Sorting.Sorted.
From Verif Require Export MVView.

(** The accounts listed by get_voters. *)
Definition voter_ids (s : state) : list string := (voters s).*1.

(** Sum of the voting power of the positions reported as locked. *)
Definition locked_power (s : state) (vid : string) : N :=
  sum_by (fun j => if j_is_locked j then j_vp j else 0) (get_all_locking_positions 0 s vid).

(** A property of every (state, call) pair met while running a history. *)
Fixpoint along (Q : state -> call -> Prop) (s : state) (tr : list call) : Prop :=
  match tr with
  | [] => True
  | x :: tr' => Q s x /\ along Q (step s x) tr'
  end.

(** A call that succeeds in a state. *)
Definition succeeds (s : state) (x : call) : Prop := exists r, exec x.1 s x.2 = Ok r.

(** (voter, votable address) of a voting call *)
Definition vote_target (x : call) : option (string * string) :=
  match x.2 with
  | Vote _ a _ => Some (c_pred x.1, a)
  | VoteDelegated e _ a _ => Some (pseudo_near_address e, a)
  | _ => None
  end.
Definition vote_targets (tr : list call) : list (string * string) := omap vote_target tr.

(** No two different (voter, address) pairs of the history have the same concatenation
    voter-address: the contract derives a storage prefix from that concatenation. *)
Definition collision_free (tr : list call) : Prop :=
  forall p q, In p (vote_targets tr) -> In q (vote_targets tr) ->
    p.1 +:+ "-" +:+ p.2 = q.1 +:+ "-" +:+ q.2 -> p = q.

Fixpoint has_hyphen (s : string) : bool :=
  match s with
  | EmptyString => false
  | String c s' => Ascii.eqb c "-" || has_hyphen s'
  end.

(** No vote of zero power is cast. *)
Definition no_zero_votes (tr : list call) : Prop :=
  Forall (fun x => match x.2 with Vote p _ _ | VoteDelegated _ p _ _ => p <> 0 | _ => True end) tr.

(** Every unlock names a position that is still locked. *)
Definition unlocks_locked (s : state) (x : call) : Prop :=
  match x.2 with
  | Unlock i | UnlockPartial i _ =>
      succeeds s x ->
      exists j, get_locking_position (now_ms x.1) s i (c_pred x.1) = Some j /\ j_is_locked j = true
  | _ => True
  end.

(** Used voting power, 0 if the view panicked (theorems state separately that it does not). *)
Definition used_or0 (s : state) (vid : string) : N :=
  match get_used_voting_power s vid with Ok u => u | Panic _ => 0 end.

(** Block time never goes back. *)
Definition timed (tr : list call) : Prop := Sorted N.le (map (fun x : call => c_ts x.1) tr).

(** ** Claims about a state *)

(** C01 *)
Definition votes_backed (s : state) : Prop :=
  forall vid, exists u, get_used_voting_power s vid = Ok u /\
    get_available_voting_power s vid + u <= locked_power s vid.

(** C02 *)
Definition total_is_sum (s : state) : Prop :=
  (forall vid, exists u, get_used_voting_power s vid = Ok u) /\
  get_total_voting_power s
  = sum_by (fun vid => get_available_voting_power s vid + used_or0 s vid) (voter_ids s).

(** C03 *)
Definition votes_or0 (s : state) (vid addr obj : string) : N :=
  match get_votes_for_object s vid addr obj with Ok x => x | Panic _ => 0 end.
Definition tallies_match (s : state) : Prop :=
  forall addr obj,
    (forall vid, exists x, get_votes_for_object s vid addr obj = Ok x) /\
    get_total_votes s addr obj = sum_by (fun vid => votes_or0 s vid addr obj) (voter_ids s).

(** C04 *)
Definition power_accounted (s : state) : Prop :=
  forall vid, exists u, get_used_voting_power s vid = Ok u /\
    get_available_voting_power s vid + u = locked_power s vid.

(** C13 *)
Definition voted_addresses (j : voter_json) : list string :=
  remove_dups (map (fun t : string * string * N => t.1.1) (vj_votes j)).
Definition addresses_bounded (extra : N) (s : state) : Prop :=
  forall now vid j, get_voter_info now s vid = Ok j ->
    N.of_nat (length (voted_addresses j)) <= max_vps s + extra.

(** C14 *)
Definition one_locked_per_period (s : state) : Prop :=
  forall vid i k p q,
    get_locking_position 0 s i vid = Some p -> get_locking_position 0 s k vid = Some q ->
    j_is_locked p = true -> j_is_locked q = true -> j_days p = j_days q -> i = k.

(** C15 *)
Definition periods_bounded (s : state) : Prop :=
  forall vid i p, get_locking_position 0 s i vid = Some p -> j_days p <= max_unbond s.

(** VoterJSON.balance_in_contract *)
Definition raw_balance (s : state) (vid : string) : N := v_bal (get_voter s vid).
(** what is stored of a position (without its index and its time-dependent flags) *)
Definition pos_data (j : lp_json) : N * N * N * option N := (j_amount j, j_days j, j_vp j, j_unl j).
Definition positions_amount (s : state) (vid : string) : N :=
  sum_by j_amount (get_all_locking_positions 0 s vid).
(** tokens in locked positions of one period *)
Definition locked_amount_at (s : state) (vid : string) (d : N) : N :=
  sum_by (fun j => if j_is_locked j && (j_days j =? d) then j_amount j else 0)
    (get_all_locking_positions 0 s vid).
