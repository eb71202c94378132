(** MVAsk.v -- the views of the voting contract on the bytes in storage: each loads the root struct and reads the records it needs.
    Paths in comments are relative to /repo/meta-vote-contract/src.
    Simplified: the texts of panics; an iterator over a map reads all keys before the values. *)

From Verif Require Export MVBytes Ask.
Import MetaVote MVBytes.

Section Keccak.
Variable H : string -> string.

(** internal.rs:26-30, then voter.rs:41-69: the sum of the amounts of the positions chosen by [f] *)
Definition xb_sum (f : lpos -> bool) (x : bx) (w : bvoter) : res N :=
  l ← p_all (xst x) (w_lps w); sum128 (map lp_amount (List.filter f l)).
(** view.rs:63-65 and the lengths in 41-61 *)
Definition xb_count (h : umh) : res nat := n ← b_len h; Ok (N.to_nat n).
(** view.rs:41-61 *)
Definition xb_info (r : newroot) : res contract_info :=
  n ← xb_count (n_voters r);
  m ← xb_count (n_evm_delegates r);
  Ok (mkInfo (n_owner_id r) (n_operator_id r) n (n_min_unbond_period r) (n_max_unbond_period r)
    (n_min_deposit_amount r) (n_max_locking_positions r) (n_max_voting_positions r) (n_mpdao_token_contract_address r)
    (n_stnear_token_contract_address r) (n_registration_cost r) (n_prev_governance_contract r)
    (n_accumulated_mpdao_distributed_for_claims r) (n_total_unclaimed_mpdao r)
    (n_accum_distributed_stnear_for_claims r) (n_total_unclaimed_stnear r) m).
(** view.rs:102-106 *)
Definition xb_balance (now : N) (x : bx) (vid : string) : res N :=
  w ← xb_get H x vid; u ← xb_sum (is_unlocked now) x w; add128 (w_bal w) u.
(** view.rs:108-124 *)
Definition xb_claimable (x : bx) (h : umh) (vid : string) : res N := o ← u_get dec_u128 (xst x) h (enc_str vid); Ok (default 0 o).
(** view.rs:155-163 *)
Definition xb_locked (x : bx) (vid : string) : res N := w ← xb_get H x vid; xb_sum is_locked x w.
Definition xb_unlocking (now : N) (x : bx) (vid : string) : res N := w ← xb_get H x vid; xb_sum (is_unlocking now) x w.
(** view.rs:165-173 *)
Definition xb_available (x : bx) (vid : string) : res N := w ← xb_get H x vid; Ok (w_avail w).
Definition xb_used_power (x : bx) (vid : string) : res N := w ← xb_get H x vid; xb_used x w.
(** view.rs:180-191 *)
Definition xb_positions (now : N) (x : bx) (vid : string) : res (list lp_json) :=
  w ← xb_get H x vid; l ← p_all (xst x) (w_lps w); Ok (imap (fun i p => lp_to_json now i p) l).
(** view.rs:193-203 *)
Definition xb_position (now : N) (x : bx) (i : nat) (vid : string) : res (option lp_json) :=
  w ← xb_get H x vid; o ← p_get (xst x) (w_lps w) i; Ok (option_map (lp_to_json now i) o).
(** view.rs:206-216 *)
Definition xb_total_votes (x : bx) (addr obj : string) : res N :=
  oh ← u_get dec_umh (xst x) (n_votes (xr x)) (enc_str addr);
  match oh with Some h => o ← u_get dec_u128 (xst x) h (enc_str obj); Ok (default 0 o) | None => Ok 0 end.
(** view.rs:272-284 *)
Definition xb_for_object (x : bx) (vid addr obj : string) : res N :=
  w ← xb_get H x vid;
  oh ← u_get dec_umh (xst x) (w_vp w) (enc_str addr);
  match oh with Some h => o ← u_get dec_u128 (xst x) h (enc_str obj); Ok (default 0 o) | None => Ok 0 end.
(** lib.rs:157-164, 177-179 *)
Definition xb_registered (x : bx) (a : string) : res bool :=
  o ← u_get dec_str (xst x) (n_associated_user_data (xr x)) (enc_str a); Ok (bool_decide (is_Some o)).
Definition xb_airdrop (x : bx) (a : string) : res string :=
  o ← u_get dec_str (xst x) (n_associated_user_data (xr x)) (enc_str a); expect o "unwrap on None".
(** evm_delegate.rs:170-174 *)
Definition xb_delegating (x : bx) (a : string) : res (list string) :=
  o ← u_get dec_strs (xst x) (n_evm_delegates (xr x)) (enc_str a); Ok (default [] o).

(** keys_as_vector().iter() *)
Definition m_keys (st : flat) (h : umh) : res (list string) :=
  mapMr (fun i => o ← u_key dec_str st h i; expect o "inconsistent state") (seq 0 (N.to_nat (um_klen h))).
(** view.rs:220-231; the map of an unknown address is a new one, with the prefix of [votes] *)
Definition xb_by_app (x : bx) (addr : string) : res (list (string * N)) :=
  o ← u_get dec_umh (xst x) (n_votes (xr x)) (enc_str addr);
  u_iter dec_str dec_u128 (xst x) (default (umh_new (sk0 3)) o).
(** view.rs:234-253 *)
Definition xb_by_contract (x : bx) (addr : string) : res (list (string * string * N)) :=
  l ← xb_by_app x addr; Ok (sort_by (fun t => t.2) (map (fun ox => (addr, ox.1, ox.2)) l)).
(** view.rs:255-270 *)
Definition xb_by_voter (x : bx) (vid : string) : res (list (string * string * N)) :=
  w ← xb_get H x vid;
  addrs ← m_keys (xst x) (w_vp w);
  ls ← mapMr (fun addr =>
         oh ← u_get dec_umh (xst x) (w_vp w) (enc_str addr);
         h ← expect oh "unwrap on None";
         ks ← m_keys (xst x) h;
         vs ← m_vals dec_u128 (xst x) h;
         Ok (map (fun ox => (addr, ox.1, ox.2)) (zip ks vs))) addrs;
  Ok (sort_by (fun t => t.2) (concat ls)).
(** voter.rs:127-154 *)
Definition xb_json (now : N) (x : bx) (vid : string) (w : bvoter) : res voter_json :=
  l ← p_all (xst x) (w_lps w);
  addrs ← m_keys (xst x) (w_vp w);
  ls ← mapMr (fun addr =>
         oh ← u_get dec_umh (xst x) (w_vp w) (enc_str addr);
         h ← expect oh "unwrap on None";
         objs ← m_keys (xst x) h;
         mapMr (fun obj =>
           o ← u_get dec_u128 (xst x) h (enc_str obj);
           n ← expect o "unwrap on None";
           Ok (addr, obj, n)) objs) addrs;
  Ok (mkVoterJson vid (w_bal w) (imap (fun i p => lp_to_json now i p) l) (w_avail w) (concat ls)).
(** view.rs:72-84 *)
Definition xb_voter_info (now : N) (x : bx) (vid : string) : res voter_json :=
  o ← xb_find x vid;
  match o with Some w => xb_json now x vid w | None => Ok (mkVoterJson vid 0 [] 0 []) end.
(** the indexes from..min(from + limit, len) *)
Definition indexes (h : umh) (from limit : nat) : list nat := seq from (min (from + limit) (N.to_nat (um_klen h)) - from).
(** view.rs:87-100 *)
Definition xb_voters (now : N) (x : bx) (from limit : nat) : res (list voter_json) :=
  mapMr (fun i =>
    ok ← u_key dec_str (xst x) (n_voters (xr x)) i; k ← expect ok "unwrap on None";
    ow ← xb_find x k; w ← expect ow "unwrap on None";
    xb_json now x k w) (indexes (n_voters (xr x)) from limit).
(** view.rs:127-143; lib.rs:189-201 *)
Definition u_page {V} (d : string -> option (V * string)) (st : flat) (h : umh) (from limit : nat) : res (list (string * V)) :=
  mapMr (fun i =>
    ok ← u_key dec_str st h i; k ← expect ok "unwrap on None";
    ov ← u_get d st h (enc_str k); v ← expect ov "unwrap on None";
    Ok (k, v)) (indexes h from limit).
(** evm_delegate.rs:178-196, in u32 *)
Definition xb_delegates (x : bx) (from limit : nat) : res (list (string * list string)) :=
  let h := n_evm_delegates (xr x) in
  let len := um_klen h mod U32_SIZE in
  _ ← require (N.of_nat from <? len) "from_index >= keys_len";
  _ ← require (N.of_nat from + N.of_nat limit <? U32_SIZE) "attempt to add with overflow";
  mapMr (fun i =>
    ok ← u_key dec_str (xst x) h i; k ← expect ok "unwrap on None";
    ov ← u_get dec_strs (xst x) h (enc_str k); v ← expect ov "unwrap on None";
    Ok (k, v)) (seq from (min (from + limit) (N.to_nat len) - from)).

(** the views, as named in Ask.v; [now]: milliseconds *)
Definition xb_view (now : N) (x : bx) (q : mvq) : res val :=
  let r := xr x in
  match q with
  (* view.rs:34-69 *)
  | QOwner => Ok (VStr (n_owner_id r))
  | QOperator => Ok (VStr (n_operator_id r))
  | QInfo => i ← xb_info r; Ok (info_val i)
  | QVotersCount => n ← xb_count (n_voters r); Ok (VBig (N.of_nat n))
  | QTotalPower => Ok (VBig (n_total_voting_power r))
  (* view.rs:102-124, 155-177 *)
  | QBalance v => in_big (xb_balance now x v)
  | QClaimMp v => in_big (xb_claimable x (n_claimable_mpdao r) v)
  | QClaimSt v => in_big (xb_claimable x (n_claimable_stnear r) v)
  | QLocked v => in_big (xb_locked x v)
  | QUnlocking v => in_big (xb_unlocking now x v)
  | QAvailable v => in_big (xb_available x v)
  | QUsed v => in_big (xb_used_power x v)
  | QPeriod => Ok (pair_val VNum VNum (n_min_unbond_period r, n_max_unbond_period r))
  (* view.rs:180-216, 272-301 *)
  | QPositions v => l ← xb_positions now x v; Ok (items pos_val l)
  | QPosition i v => o ← xb_position now x (N.to_nat i) v; Ok (opt pos_val o)
  | QTotalVotes a o => in_big (xb_total_votes x a o)
  | QForObject v a o => in_big (xb_for_object x v a o)
  | QUnclaimed => Ok (VBig (n_total_unclaimed_mpdao r))
  | QAccumulated => Ok (VBig (n_accumulated_mpdao_distributed_for_claims r))
  (* lib.rs:153-164, 177-179, 768-774 *)
  | QRegCost => Ok (VBig (n_registration_cost r))
  | QRegistered a => b ← xb_registered x a; Ok (VBool b)
  | QAirdrop a => d ← xb_airdrop x a; Ok (VStr d)
  | QHold => Ok (VList [VNum (n_lock_votes_in_end_timestamp_ms r); opt VStr (n_lock_votes_in_address r); VNum (n_lock_votes_in_numeric_id r)])
  (* evm_delegate.rs:25-28, 170-174, 199-212 *)
  | QPre e => o ← k_get (xst x) (n_evm_pre_delegation r) e; Ok (opt (pair_val VStr VStr) o)
  | QDelegating a => l ← xb_delegating x a; Ok (items VStr l)
  | QDelegate e => o ← k_get (xst x) (n_evm_delegation_signatures r) e; Ok (opt VStr (option_map fst o))
  | QSignature e => o ← k_get (xst x) (n_evm_delegation_signatures r) e; p ← expect o "unwrap on None"; Ok (pair_val VStr VStr p)
  (* view.rs:72-100, 146-153 *)
  | QVoter v => j ← xb_voter_info now x v; Ok (voter_val j)
  | QVoters i j => page (items voter_val) (xb_voters now x) i j
  | QStClaims i j => page amounts (u_page dec_u128 (xst x) (n_claimable_stnear r)) i j
  | QClaims i j => page amounts (u_page dec_u128 (xst x) (n_claimable_mpdao r)) i j
  (* view.rs:220-270; lib.rs:189-201; evm_delegate.rs:178-196 *)
  | QByApp a => l ← xb_by_app x a; Ok (amounts l)
  | QByContract a => l ← xb_by_contract x a; Ok (items object_val l)
  | QByVoter v => l ← xb_by_voter x v; Ok (items object_val l)
  | QAirdrops i j => page texts (u_page dec_str (xst x) (n_associated_user_data r)) i j
  | QDelegates i j => page (items (pair_val VStr (items VStr))) (xb_delegates x) i j
  end.
(** env::state_read, then the view; nothing is written *)
Definition xb_ask (now : N) (st : flat) (q : mvq) : res val := r ← xb_load st; xb_view now (mkX st r) q.
(** the export of a view: the arguments are read from JSON, the answer is written as JSON (Ask.v) *)
Definition xb_reads (now : N) (st : flat) : string -> string -> res string := ask mv_views (xb_ask now st).
End Keccak.
