(** MVView.v -- model of the view functions of /repo/meta-vote-contract.
    Paths in comments are relative to /repo/meta-vote-contract/src. *)

From Verif Require Export MetaVote.

(** types.rs LockingPositionJSON, built by locking_position.rs:50-61 *)
Record lp_json := mkLpJson {
  j_index : nat;
  j_amount : N;
  j_days : N;
  j_vp : N;
  j_unl : option N;
  j_is_unlocked : bool;
  j_is_unlocking : bool;
  j_is_locked : bool;
}.
(** locking_position.rs:50-61 *)
Definition lp_to_json (now : N) (i : nat) (p : lpos) : lp_json :=
  mkLpJson i (lp_amount p) (lp_days p) (lp_vp p) (lp_unl p)
    (is_unlocked now p) (is_unlocking now p) (is_locked p).

(** voter.rs:7-13 VoterJSON; a vote position is (address, object, power) *)
Record voter_json := mkVoterJson {
  vj_id : string;
  vj_balance : N;
  vj_lps : list lp_json;
  vj_avail : N;
  vj_votes : list (string * string * N);
}.

(** view.rs:63-69 *)
Definition get_voters_count (s : state) : nat := length (voters s).
Definition get_total_voting_power (s : state) : N := total_vp s.

(** view.rs:180-191 *)
Definition get_all_locking_positions (now : N) (s : state) (vid : string) : list lp_json :=
  imap (fun i p => lp_to_json now i p) (v_lps (get_voter s vid)).

(** view.rs:193-203 *)
Definition get_locking_position (now : N) (s : state) (i : nat) (vid : string) : option lp_json :=
  (fun p => lp_to_json now i p) <$> (v_lps (get_voter s vid) !! i).

(** view.rs:102-106 *)
Definition get_balance (now : N) (s : state) (vid : string) : res N :=
  let v := get_voter s vid in
  u ← sum_unlocked now v; add128 (v_bal v) u.

(** view.rs:155-163 *)
Definition get_locked_balance (s : state) (vid : string) : res N := sum_locked (get_voter s vid).
Definition get_unlocking_balance (now : N) (s : state) (vid : string) : res N :=
  sum_unlocking now (get_voter s vid).

(** view.rs:165-173 *)
Definition get_available_voting_power (s : state) (vid : string) : N := v_avail (get_voter s vid).
Definition get_used_voting_power (s : state) (vid : string) : res N :=
  sum_used_votes s (get_voter s vid).

(** view.rs:206-216 *)
Definition get_total_votes (s : state) (addr obj : string) : N :=
  match om_get (votes s) addr with
  | Some m => default 0 (om_get m obj)
  | None => 0
  end.

(** view.rs:272-284 *)
Definition get_votes_for_object (s : state) (vid addr obj : string) : res N :=
  let v := get_voter s vid in
  oh ← uget (hp_vp s) (v_vp v) addr;
  match oh with
  | Some h => o ← uget (hp_vv s) h obj; Ok (default 0 o)
  | None => Ok 0
  end.

(** view.rs:220-231 (order of the map; an unknown address gives an empty list) *)
Definition get_votes_by_app (s : state) (addr : string) : list (string * N) :=
  default [] (om_get (votes s) addr).

(** The (address, object, power) triples of a voter, in iteration order:
    voter.rs:134-145. *)
Definition voter_votes (s : state) (v : voter) : res (list (string * string * N)) :=
  addrs ← ukeys (hp_vp s) (v_vp v);
  ls ← mapMr (fun addr =>
         oh ← uget (hp_vp s) (v_vp v) addr;
         h ← expect oh "unwrap on None";
         objs ← ukeys (hp_vv s) h;
         mapMr (fun obj =>
           o ← uget (hp_vv s) h obj;
           x ← expect o "unwrap on None";
           Ok (addr, obj, x)) objs) addrs;
  Ok (concat ls).

(** voter.rs:127-154 *)
Definition voter_to_json (now : N) (s : state) (vid : string) (v : voter) : res voter_json :=
  vts ← voter_votes s v;
  Ok (mkVoterJson vid (v_bal v) (imap (fun i p => lp_to_json now i p) (v_lps v)) (v_avail v) vts).

(** view.rs:72-84 *)
Definition get_voter_info (now : N) (s : state) (vid : string) : res voter_json :=
  match om_get (voters s) vid with
  | Some v => voter_to_json now s vid v
  | None => Ok (mkVoterJson vid 0 [] 0 [])
  end.

(** view.rs:87-100 *)
Definition get_voters (now : N) (s : state) (from limit : nat) : res (list voter_json) :=
  mapMr (fun i =>
    k ← expect ((voters s).*1 !! i) "unwrap on None";
    v ← expect (om_get (voters s) k) "unwrap on None";
    voter_to_json now s k v)
    (seq from (min (from + limit) (length (voters s)) - from)).

(** view.rs:108-124 *)
Definition get_claimable_mpdao (s : state) (a : string) : N := default 0 (om_get (claim_mp s) a).
Definition get_claimable_stnear (s : state) (a : string) : N := default 0 (om_get (claim_st s) a).

(** view.rs:127-143, also lib.rs:189-201 (same loop on associated_user_data) *)
Definition map_page {V} (m : omap_t string V) (from limit : nat) : res (list (string * V)) :=
  mapMr (fun i =>
    k ← expect (m.*1 !! i) "unwrap on None";
    v ← expect (om_get m k) "unwrap on None";
    Ok (k, v)) (seq from (min (from + limit) (length m) - from)).
(** view.rs:146-153 *)
Definition get_stnear_claims (s : state) := map_page (claim_st s).
Definition get_claims (s : state) := map_page (claim_mp s).
(** lib.rs:189-201 *)
Definition get_airdrop_accounts (s : state) := map_page (user_data s).
(** evm_delegate.rs:178-196 (u32 arithmetic: from + limit checked; simplified: the cast of keys.len() to u32, which
    differs only with 2^32 delegating accounts, is left out) *)
Definition get_delegates (s : state) (from limit : nat) : res (list (string * list string)) :=
  _ ← require (from <? length (evm_delegates s))%nat "from_index >= keys_len";
  _ ← require (N.of_nat from + N.of_nat limit <? U32_SIZE) "attempt to add with overflow";
  map_page (evm_delegates s) from limit.

(** lib.rs:157-179 *)
Definition check_if_registered (s : state) (a : string) : bool :=
  match om_get (user_data s) a with Some _ => true | None => false end.
Definition get_airdrop_account (s : state) (a : string) : res string :=
  expect (om_get (user_data s) a) "unwrap on None".

(** evm_delegate.rs:25-28, 170-174, 199-212 *)
Definition get_pre_delegate (s : state) (evm : string) : option (string * string) := evm_pre s !! evm.
Definition get_delegating_evm_addresses (s : state) (a : string) : list string :=
  default [] (om_get (evm_delegates s) a).
(** evm_delegate.rs:199-205 *)
Definition get_delegate (s : state) (evm : string) : option string := fst <$> (evm_sigs s !! evm).
(** evm_delegate.rs:210-212 *)
Definition get_delegation_signature (s : state) (evm : string) : res (string * string) :=
  expect (evm_sigs s !! evm) "unwrap on None".

(** lib.rs:768-774 *)
Definition get_lock_in_vote_filters (s : state) : N * option string * N :=
  (lock_end s, lock_addr s, lock_id s).

(** view.rs:287-301 *)
Definition get_total_unclaimed_mpdao (s : state) : N := uncl_mp s.
Definition get_accumulated_mpdao (s : state) : N := accum_mp s.

(** view.rs:12-30, 41-61 *)
Record contract_info := mkInfo {
  ci_owner : string; ci_operator : string; ci_voter_count : nat;
  ci_min_unbond : N; ci_max_unbond : N; ci_min_deposit : N; ci_max_lps : N; ci_max_vps : N;
  ci_mpdao : string; ci_stnear : string; ci_reg_cost : N; ci_prev_gov : string;
  ci_accum_mp : N; ci_uncl_mp : N; ci_accum_st : N; ci_uncl_st : N; ci_delegates : nat;
}.
(** view.rs:41-61 *)
Definition get_contract_info (s : state) : contract_info :=
  mkInfo (owner_id s) (operator_id s) (length (voters s)) (min_unbond s) (max_unbond s)
    (min_deposit s) (max_lps s) (max_vps s) (mpdao_addr s) (stnear_addr s) (reg_cost s)
    (prev_gov s) (accum_mp s) (uncl_mp s) (accum_st s) (uncl_st s) (length (evm_delegates s)).

(** view.rs:34-39, 175-177; lib.rs:153-155 *)
Definition get_owner_id (s : state) : string := owner_id s.
Definition get_operator_id (s : state) : string := operator_id s.
Definition get_locking_period (s : state) : N * N := (min_unbond s, max_unbond s).
(** lib.rs:153-155 *)
Definition get_registration_cost (s : state) : N := reg_cost s.

(** slice::sort_by_key, a stable sort *)
Fixpoint insert_by {A} (f : A -> N) (x : A) (l : list A) : list A :=
  match l with
  | [] => [x]
  | y :: l' => if f x <=? f y then x :: l else y :: insert_by f x l'
  end.
Definition sort_by {A} (f : A -> N) (l : list A) : list A := fold_right (insert_by f) [] l.

(** view.rs:234-253; a VotableObjectJSON is (contract, id, votes) *)
Definition get_votes_by_contract (s : state) (addr : string) : list (string * string * N) :=
  sort_by (fun t => t.2) (map (fun ox => (addr, ox.1, ox.2)) (get_votes_by_app s addr)).

(** view.rs:255-270 *)
Definition get_votes_by_voter (s : state) (vid : string) : res (list (string * string * N)) :=
  let v := get_voter s vid in
  addrs ← ukeys (hp_vp s) (v_vp v);
  ls ← mapMr (fun addr =>
         oh ← uget (hp_vp s) (v_vp v) addr;
         h ← expect oh "unwrap on None";
         ents ← uentries (hp_vv s) h;
         Ok (map (fun ox => (addr, ox.1, ox.2)) ents)) addrs;
  Ok (sort_by (fun t => t.2) (concat ls)).
