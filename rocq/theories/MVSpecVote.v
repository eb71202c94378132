(** MVSpecVote.v -- vocabulary of the specifications about voting (C21, C25, C29, C30, C31). *)

From Verif Require Export MVSpec.

(** [pat] occurs in [s] *)
Definition occurs (pat s : string) : Prop := exists pre post, s = pre +:+ pat +:+ post.

(** The lock-in filters hold back removals from this object at time [now] (milliseconds). *)
Definition lock_in_applies (s : state) (now : N) (addr obj : string) : Prop :=
  let '(until, a, id) := get_lock_in_vote_filters s in
  now < until /\ a = Some addr /\ occurs (" #" +:+ pretty id +:+ " ") obj.

(** Everything except the votes of [vid] on ([addr], [obj]), that tally, and the available power
    of [vid] is unchanged. *)
Definition rest_unchanged (s s' : state) (vid addr obj : string) : Prop :=
  (forall w a o, (w, a, o) <> (vid, addr, obj) ->
     get_votes_for_object s' w a o = get_votes_for_object s w a o) /\
  (forall a o, (a, o) <> (addr, obj) -> get_total_votes s' a o = get_total_votes s a o) /\
  (forall w, w <> vid -> get_available_voting_power s' w = get_available_voting_power s w) /\
  (forall w, raw_balance s' w = raw_balance s w) /\
  (forall now w, get_all_locking_positions now s' w = get_all_locking_positions now s w) /\
  voter_ids s' = voter_ids s /\
  (* all other fields of the contract *)
  s' = s <| voters := voters s' |> <| votes := votes s' |> <| hp_vp := hp_vp s' |> <| hp_vv := hp_vv s' |>.

(** The votes of [vid] on ([addr], [obj]) go from [old] to [new], with tally and power. *)
Definition vote_change (s s' : state) (vid addr obj : string) (old new : N) : Prop :=
  get_votes_for_object s vid addr obj = Ok old /\
  get_votes_for_object s' vid addr obj = Ok new /\
  get_total_votes s' addr obj + old = get_total_votes s addr obj + new /\
  get_available_voting_power s' vid + new = get_available_voting_power s vid + old /\
  rest_unchanged s s' vid addr obj.

(** The account whose data a call may change. *)
Definition call_target (x : call) : string :=
  match x.2 with
  | FtOnTransfer sender _ msg =>
      match parse_u16 msg with
      | Some _ => sender
      | None => match c_json_pair x.1 msg with Some (v, _) => v | None => sender end
      end
  | MigrationCreateLps vid _ _ => vid
  | MirrorLps ext _ => pseudo_near_address ext
  | VoteDelegated evm _ _ _ | UnvoteDelegated evm _ _ => pseudo_near_address evm
  | AfterMp vid _ _ => vid
  | _ => c_pred x.1
  end.

(** Power of one mirrored position (days, amount). *)
Definition lp_power (lp : N * N) : N := lp.2 * 10^18 * lp.1 / 60.

(** The votes of an account by address, and the rule by which mirroring sheds votes: while they
    exceed [new], the first object of the first address is dropped (removal from a list moves
    its last element into the hole, as the collections do). *)
Notation vlisting := (list (string * list (string * N))) (only parsing).
Definition listing_power (l : vlisting) : N := sum_by (fun e => sum_by snd e.2) l.
Definition pop_first {A} (l : list A) : list A :=
  match l with
  | [] => []
  | _ :: r => match rev r with [] => [] | z :: r' => z :: rev r' end
  end.
Definition drop_first (l : vlisting) : vlisting :=
  match l with
  | (a, m) :: r => match pop_first m with [] => pop_first l | m' => (a, m') :: r end
  | [] => []
  end.
Inductive shed (new : N) : vlisting -> vlisting -> Prop :=
| shed_done l : listing_power l <= new -> shed new l l
| shed_step l l' : new < listing_power l -> shed new (drop_first l) l' -> shed new l l'.

(** the triples shown by get_voter_info for such a listing *)
Definition triples (l : vlisting) : list (string * string * N) :=
  concat (map (fun e => map (fun ox => (e.1, ox.1, ox.2)) e.2) l).

(** [l] is the listing of the votes of [vid] *)
Definition votes_listed (s : state) (vid : string) (l : vlisting) : Prop :=
  NoDup l.*1 /\ Forall (fun e => e.2 <> []) l /\
  forall now, exists j, get_voter_info now s vid = Ok j /\ vj_votes j = triples l.

(** C31: [vid] holds exactly the given positions, given as (days, amount). *)
Definition mirrored (s s' : state) (vid : string) (lps : list (N * N)) : Prop :=
  let new := sum_by lp_power lps in
  (forall now, map pos_data (get_all_locking_positions now s' vid)
               = map (fun lp => (lp.2, lp.1, lp_power lp, None)) lps) /\
  (exists u u', get_used_voting_power s vid = Ok u /\ get_used_voting_power s' vid = Ok u' /\
     get_available_voting_power s' vid + u' = new /\
     get_total_voting_power s' + (get_available_voting_power s vid + u)
     = get_total_voting_power s + new) /\
  (exists l0 l1, votes_listed s vid l0 /\ votes_listed s' vid l1 /\ shed new l0 l1) /\
  (forall a o, exists x x', get_votes_for_object s vid a o = Ok x /\ get_votes_for_object s' vid a o = Ok x' /\
     (x' = x \/ x' = 0) /\ get_total_votes s' a o + x = get_total_votes s a o + x') /\
  raw_balance s' vid = raw_balance s vid.

(** arguments the operator can mirror *)
Definition mirrorable (s : state) (lps : list (N * N)) : Prop :=
  NoDup lps.*1 /\ N.of_nat (length lps) <= max_lps s /\
  Forall (fun lp => lp.2 * 10^18 < 2^128 /\ lp.1 < 3600) lps /\
  get_total_voting_power s + sum_by lp_power lps < 2^128.
