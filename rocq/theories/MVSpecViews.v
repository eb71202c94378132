(** MVSpecViews.v -- what every view of the voting contract answers (C74), in terms of the ledger of MVSpecStep.v. *)

From Verif Require Export MVSpecStep.

Definition ending (now : N) (p : pos) : bool := match p_since p with Some t => now <=? ends p t | None => false end.
Definition show_pos (now : N) (k : nat) (p : pos) : lp_json :=
  {| j_index := k; j_amount := p_amount p; j_days := p_days p; j_vp := p_vp p; j_unl := p_since p;
     j_is_unlocked := ended now p; j_is_unlocking := ending now p; j_is_locked := locked p |}.
Definition amounts (f : pos -> bool) (a : acct) : N := sum_by p_amount (List.filter f (a_pos a)).
(** the answer is [n], or a panic if that needs more than 128 bits *)
Definition is128 (r : res N) (n : N) : Prop := (n < 2 ^ 128 -> r = Ok n) /\ (2 ^ 128 <= n -> exists m, r = Panic m).
(** [l] lists the votes [f] that are not 0, each once *)
Definition ballot (f : string -> string -> N) (l : list (string * string * N)) : Prop :=
  NoDup (map fst l) /\ forall x y n, In (x, y, n) l <-> n = f x y /\ 0 < n.

Definition account_views (now : N) (s : state) (w : string) (a : acct) : Prop :=
  let lps := imap (show_pos now) (a_pos a) in
  get_all_locking_positions now s w = lps /\
  (forall k, get_locking_position now s k w = lps !! k) /\
  is128 (get_balance now s w) (a_bal a + amounts (ended now) a) /\
  is128 (get_locked_balance s w) (amounts locked a) /\
  is128 (get_unlocking_balance now s w) (amounts (ending now) a) /\
  get_available_voting_power s w = a_free a /\
  get_used_voting_power s w = Ok (a_used a) /\
  (forall x y, get_votes_for_object s w x y = Ok (a_votes a x y)) /\
  (exists l, get_votes_by_voter s w = Ok l /\ ballot (a_votes a) l /\ Sorted N.le (map snd l)) /\
  exists l, get_voter_info now s w =
              Ok {| vj_id := w; vj_balance := a_bal a; vj_lps := lps; vj_avail := a_free a; vj_votes := l |} /\
            ballot (a_votes a) l.

(** the pages of a view are those of the list [l] *)
Definition pages_of {A} (view : nat -> nat -> res (list A)) (l : list A) : Prop :=
  forall from limit, view from limit = Ok (take limit (drop from l)).
(** [l] lists the entries of [f] that are not 0 *)
Definition entries (f : string -> N) (l : list (string * N)) : Prop :=
  NoDup l.*1 /\ forall w n, In (w, n) l <-> n = f w /\ 0 < n.

Definition list_views (now : N) (s : state) (L : ledger) : Prop :=
  (exists l, pages_of (get_voters now s) l /\ NoDup (map vj_id l) /\ get_voters_count s = length l /\
     ci_voter_count (get_contract_info s) = length l /\
     (forall w, In w (map vj_id l) <-> a_voter (l_acct L w) = true) /\
     forall j, In j l -> get_voter_info now s (vj_id j) = Ok j) /\
  (exists l, pages_of (get_claims s) l /\ entries (l_mp L) l) /\
  (exists l, pages_of (get_stnear_claims s) l /\ entries (l_st L) l) /\
  (exists l, pages_of (get_airdrop_accounts s) l /\ NoDup l.*1 /\ forall w d, In (w, d) l <-> l_data L w = Some d) /\
  (exists l, NoDup l.*1 /\ (forall w es, In (w, es) l -> es = l_evms L w) /\ (forall w, l_evms L w <> [] -> In w l.*1) /\
     ci_delegates (get_contract_info s) = length l /\
     forall from limit,
       if decide ((from < length l)%nat /\ N.of_nat from + N.of_nat limit < 2 ^ 32)
       then get_delegates s from limit = Ok (take limit (drop from l))
       else exists m, get_delegates s from limit = Panic m).

Definition other_views (s : state) (L : ledger) : Prop :=
  (forall x, entries (l_tally L x) (get_votes_by_app s x)) /\
  (forall x, NoDup (map fst (get_votes_by_contract s x)) /\ Sorted N.le (map snd (get_votes_by_contract s x)) /\
     forall x' y n, In (x', y, n) (get_votes_by_contract s x) <-> x' = x /\ n = l_tally L x y /\ 0 < n) /\
  (forall w, check_if_registered s w = true <-> l_data L w <> None) /\
  (forall w d, get_airdrop_account s w = Ok d <-> l_data L w = Some d) /\
  (forall e to sg, get_delegation_signature s e = Ok (to, sg) <-> l_deleg L e = Some (to, sg)) /\
  (forall e to, get_delegate s e = Some to <-> exists sg, l_deleg L e = Some (to, sg)) /\
  get_owner_id s = l_owner L /\ get_operator_id s = l_operator L /\ get_registration_cost s = l_fee L /\
  get_locking_period s = (l_min_days L, l_max_days L) /\ get_total_unclaimed_mpdao s = l_mp_total L /\
  get_accumulated_mpdao s = l_mp_ever L.
