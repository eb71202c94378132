(** MetaVote.v -- model of /repo/meta-vote-contract (state-changing functions).

    Paths in comments are relative to /repo/meta-vote-contract/src.
    Simplifications (everywhere): logs are dropped; promise gas is dropped; account ids are
    arbitrary strings; integer arguments are arbitrary [N] (a superset of the Rust ranges). *)

From Verif Require Export Base OMap UMap.

(** ** Constants and utilities *)

(** constants.rs:4-5 *)
Definition ONE_MPDAO : N := 1000000.
Definition E18 : N := 1000000000000000000.
(** deposit.rs:7 *)
Definition E20 : N := 100000000000000000000.

(** utils.rs:10-12.  u16 * 86_400_000 fits u64. *)
Definition days_to_millis (d : N) : N := d * 86400000.

(** utils.rs:21-23.  The product is a U256 and cannot overflow (u128*u128);
    [as_u128] panics when the quotient does not fit. *)
Definition proportional (amount num den : N) : res N :=
  let q := amount * num / den in
  if q <? U128_SIZE then Ok q else Panic "Integer overflow when casting to u128".

(** utils.rs:29-31 *)
Definition pseudo_near_address (ext : string) : string := ext +:+ ".evmp.near".

(** utils.rs:33-35 *)
Definition assert_at_least_1_mpdao (a : N) : res unit :=
  require (ONE_MPDAO <=? a) "amount should be at least 1 mpDAO".

(** utils.rs:41-46 *)
Definition calculate_voting_power (amount days : N) : res N :=
  base ← (if amount * E18 <? U128_SIZE then Ok (amount * E18) else Panic "vp overflow");
  _ ← require (days <? 3600) "assertion failed: unbond_days < 3600";
  proportional base days 60.

(** ** Data *)

(** locking_position.rs:6-11 *)
Record lpos := mkLpos {
  lp_amount : N;
  lp_days : N;             (* locking_period *)
  lp_vp : N;               (* voting_power *)
  lp_unl : option N;       (* unlocking_started_at, epoch millis *)
}.
Global Instance eta_lpos : Settable lpos := settable! mkLpos <lp_amount; lp_days; lp_vp; lp_unl>.
Global Instance lpos_eq_dec : EqDecision lpos.
Proof. solve_decision. Defined.

(** voter.rs:16-21.  [locking_positions] is a near_sdk Vector: a pure list (a Vector has no
    index records; a re-created Vector overwrites stale cells on push).
    [vote_positions] is a handle into the storage heap [hp_vp]. *)
Record voter := mkVoter {
  v_bal : N;
  v_lps : list lpos;
  v_avail : N;
  v_vp : hmap;
}.
Global Instance eta_voter : Settable voter := settable! mkVoter <v_bal; v_lps; v_avail; v_vp>.
Global Instance voter_eq_dec : EqDecision voter.
Proof. solve_decision. Defined.

(** lib.rs:28-66.  Contract-level UnorderedMaps are ordered maps (OMap); LookupMaps are gmaps.
    [votes]: the nested maps have the unique prefix ContractVotes{hash(address)}, are dropped
    only when empty, so the pure nested map is faithful (UMap.v / Props_Collections.v).
    [self_id] is env::current_account_id().
    [hp_vp]: storage of all vote_positions maps, keyed by the id hashed into the prefix
    VotePosition{hash(voter_id)}; [hp_vv]: storage of the maps inside them, keyed by the string
    hashed into VoterVotes{hash("voter-address")} (keccak treated as injective). *)
Record state := mkState {
  self_id : string;
  owner_id : string;
  operator_id : string;
  voters : omap_t string voter;
  votes : omap_t string (omap_t string N);
  min_unbond : N;
  max_unbond : N;
  min_deposit : N;
  max_lps : N;
  max_vps : N;
  mpdao_addr : string;
  total_vp : N;
  claim_mp : omap_t string N;
  accum_mp : N;
  uncl_mp : N;
  stnear_addr : string;
  claim_st : omap_t string N;
  accum_st : N;
  uncl_st : N;
  reg_cost : N;
  user_data : omap_t string string;
  prev_gov : string;
  evm_delegates : omap_t string (list string);
  evm_pre : gmap string (string * string);
  evm_sigs : gmap string (string * string);
  lock_end : N;
  lock_addr : option string;
  lock_id : N;
  hp_vp : heap hmap;
  hp_vv : heap N;
}.
Global Instance eta_state : Settable state := settable! mkState
  <self_id; owner_id; operator_id; voters; votes; min_unbond; max_unbond; min_deposit; max_lps;
   max_vps; mpdao_addr; total_vp; claim_mp; accum_mp; uncl_mp; stnear_addr; claim_st; accum_st;
   uncl_st; reg_cost; user_data; prev_gov; evm_delegates; evm_pre; evm_sigs; lock_end; lock_addr;
   lock_id; hp_vp; hp_vv>.

(** Promises created by a call: ft_transfer + callback. *)
Inductive eff :=
| PayMp (voter : string) (amount : N)                    (* withdraw.rs:66-76 *)
| PaySt (token source receiver : string) (amount : N).   (* withdraw.rs:108-123 *)

(** ** Initialisation: lib.rs:71-118.
    Integer parameter ranges (u16, u8, u128) are checked as deserialisation would. *)
Record init_args := mkInit {
  i_self : string;
  i_owner : string;
  i_operator : string;
  i_min_unbond : N;
  i_max_unbond : N;
  i_min_deposit : N;
  i_max_lps : N;
  i_max_vps : N;
  i_mpdao : string;
  i_stnear : string;
  i_reg_cost : N;
  i_prev_gov : string;
}.

(** lib.rs:71-118 *)
Definition mv_new (a : init_args) : res state :=
  _ ← require ((i_min_unbond a <? U16_SIZE) && (i_max_unbond a <? U16_SIZE)
               && (i_min_deposit a <? U128_SIZE) && (i_max_lps a <? U8_SIZE)
               && (i_max_vps a <? U8_SIZE) && (i_reg_cost a <? U128_SIZE)) "deserialize";
  _ ← require (i_min_unbond a <? i_max_unbond a) "Review the min and max locking period";
  Ok {| self_id := i_self a;
        owner_id := i_owner a;
        operator_id := i_operator a;
        voters := [];
        votes := [];
        min_unbond := i_min_unbond a;
        max_unbond := i_max_unbond a;
        min_deposit := i_min_deposit a;
        max_lps := i_max_lps a;
        max_vps := i_max_vps a;
        mpdao_addr := i_mpdao a;
        total_vp := 0;
        claim_mp := [];
        accum_mp := 0;
        uncl_mp := 0;
        stnear_addr := i_stnear a;
        claim_st := [];
        accum_st := 0;
        uncl_st := 0;
        reg_cost := i_reg_cost a;
        user_data := [];
        prev_gov := i_prev_gov a;
        evm_delegates := [];
        evm_pre := ∅;
        evm_sigs := ∅;
        lock_end := 0;
        lock_addr := None;
        lock_id := 0;
        hp_vp := ∅;
        hp_vv := ∅ |}.

(** ** internal.rs *)

(** internal.rs:4-9 *)
Definition assert_only_owner (c : ctx) (s : state) : res unit :=
  require (bool_decide (owner_id s = c_pred c)) "Only the owner can call this function.".
(** internal.rs:10-15 *)
Definition assert_operator (c : ctx) (s : state) : res unit :=
  require (bool_decide (operator_id s = c_pred c)) "Only the operator can call this function.".
(** internal.rs:17-23 *)
Definition assert_min_deposit_amount (s : state) (amount : N) : res unit :=
  require (min_deposit s <=? amount) "Minimum deposit amount".

(** voter.rs:24-35 *)
Definition new_voter (id : string) : voter := mkVoter 0 [] 0 (unew id).

(** internal.rs:26-30 *)
Definition get_voter (s : state) (id : string) : voter :=
  default (new_voter id) (om_get (voters s) id).
(** internal.rs:31-36 *)
Definition get_voter_or_panic (s : state) (id : string) : res voter :=
  expect (om_get (voters s) id) "invalid voter_id".

(** self.voters.insert(&voter_id, &voter) *)
Definition save_voter (s : state) (id : string) (v : voter) : state :=
  s <| voters := om_set (voters s) id v |>.

(** internal.rs:49-61 (with 38-47 inlined) *)
Definition increase_total_votes (s : state) (vp : N) (addr obj : string) : res state :=
  let m := default [] (om_get (votes s) addr) in
  v' ← add128 (default 0 (om_get m obj)) vp;
  Ok (s <| votes := om_set (votes s) addr (om_set m obj v') |>).

(** internal.rs:63-87 *)
Definition decrease_total_votes (s : state) (vp : N) (addr obj : string) : res state :=
  let m := default [] (om_get (votes s) addr) in
  v ← expect (om_get m obj) "Cannot decrease if the Contract Address has no Votable Object.";
  _ ← require (vp <=? v) "Decreasing total is too large.";
  v' ← sub128 v vp;
  let m' := if v' =? 0 then om_remove m obj else om_set m obj v' in
  Ok (s <| votes := match m' with
                    | [] => om_remove (votes s) addr
                    | _ => om_set (votes s) addr m'
                    end |>).

(** internal.rs:93-103 (map and total of one token) *)
Definition add_claimable (m : omap_t string N) (total : N) (acct : string) (amount : N)
  : res (omap_t string N * N) :=
  x ← add128 (default 0 (om_get m acct)) amount;
  t ← add128 total amount;
  Ok (om_set m acct x, t).

(** internal.rs:105-127 *)
Definition remove_claimable (m : omap_t string N) (total : N) (acct : string) (amount : N)
  : res (omap_t string N * N) :=
  let existing := default 0 (om_get m acct) in
  _ ← require (amount <=? existing) "you don't have enough claimable";
  after ← sub128 existing amount;
  let m' := if after =? 0 then om_remove m acct else om_set m acct after in
  t ← sub128 total amount;
  Ok (m', t).

(** internal.rs:129-137 *)
Definition add_claimable_mpdao (s : state) (acct : string) (amount : N) : res state :=
  _ ← require (0 <? amount) "assertion failed: amount > 0";
  '(m, t) ← add_claimable (claim_mp s) (uncl_mp s) acct amount;
  Ok (s <| claim_mp := m |> <| uncl_mp := t |>).
(** internal.rs:139-147 *)
Definition add_claimable_stnear (s : state) (acct : string) (amount : N) : res state :=
  _ ← require (0 <? amount) "assertion failed: amount > 0";
  '(m, t) ← add_claimable (claim_st s) (uncl_st s) acct amount;
  Ok (s <| claim_st := m |> <| uncl_st := t |>).
(** internal.rs:149-157 *)
Definition remove_claimable_mpdao (s : state) (acct : string) (amount : N) : res state :=
  '(m, t) ← remove_claimable (claim_mp s) (uncl_mp s) acct amount;
  Ok (s <| claim_mp := m |> <| uncl_mp := t |>).
(** internal.rs:159-167 *)
Definition remove_claimable_stnear (s : state) (acct : string) (amount : N) : res state :=
  '(m, t) ← remove_claimable (claim_st s) (uncl_st s) acct amount;
  Ok (s <| claim_st := m |> <| uncl_st := t |>).

(** ** locking_position.rs and voter.rs *)

(** locking_position.rs:32-34 *)
Definition is_locked (p : lpos) : bool := match lp_unl p with None => true | _ => false end.
(** locking_position.rs:36-41 (the u64 sum cannot overflow: see [date_add_no_overflow]) *)
Definition is_unlocking (now : N) (p : lpos) : bool :=
  match lp_unl p with Some d => now <=? d + days_to_millis (lp_days p) | None => false end.
(** locking_position.rs:43-48 *)
Definition is_unlocked (now : N) (p : lpos) : bool :=
  match lp_unl p with Some d => d + days_to_millis (lp_days p) <? now | None => false end.

(** voter.rs:37-39 *)
Definition voter_is_empty (v : voter) : bool :=
  (v_bal v =? 0) && match v_lps v with [] => true | _ => false end.

(** voter.rs:41-49, 51-59, 61-69 *)
Definition sum_locked (v : voter) : res N :=
  sum128 (map lp_amount (List.filter is_locked (v_lps v))).
(** voter.rs:51-59 *)
Definition sum_unlocking (now : N) (v : voter) : res N :=
  sum128 (map lp_amount (List.filter (is_unlocking now) (v_lps v))).
(** voter.rs:61-69 *)
Definition sum_unlocked (now : N) (v : voter) : res N :=
  sum128 (map lp_amount (List.filter (is_unlocked now) (v_lps v))).

(** voter.rs:71-77 *)
Definition sum_used_votes (s : state) (v : voter) : res N :=
  hs ← uvals (hp_vp s) (v_vp v);
  foldM (fun acc h => vs ← uvals (hp_vv s) h; t ← sum128 vs; add128 acc t) hs 0.

(** voter.rs:79-88 *)
Fixpoint find_locked_from (i : nat) (l : list lpos) (days : N) : option nat :=
  match l with
  | [] => None
  | p :: l' =>
      if (lp_days p =? days) && is_locked p then Some i else find_locked_from (S i) l' days
  end.
(** voter.rs:79-88 *)
Definition find_locked_position (v : voter) (days : N) : option nat :=
  find_locked_from 0 (v_lps v) days.

(** voter.rs:90-94 *)
Definition get_position (v : voter) (i : nat) : res lpos :=
  expect (v_lps v !! i) "Index out of range!".

(** voter.rs:96-98 *)
Definition remove_position (v : voter) (i : nat) : res voter :=
  _ ← require (i <? length (v_lps v))%nat "index out of bounds";
  Ok (v <| v_lps := swap_remove i (v_lps v) |>).

(** Vector::replace *)
Definition replace_position (v : voter) (i : nat) (p : lpos) : voter :=
  v <| v_lps := <[i := p]> (v_lps v) |>.

(** voter.rs:105: the id hashed into the prefix of a voter's votes for an address *)
Definition vkey (vid addr : string) : string := vid +:+ "-" +:+ addr.

(** voter.rs:100-111 *)
Definition get_vote_position_for_address (s : state) (v : voter) (vid addr : string) : res hmap :=
  o ← uget (hp_vp s) (v_vp v) addr;
  Ok (default (unew (vkey vid addr)) o).

(** voter.rs:113-125 *)
Definition unlocked_indexes (now : N) (l : list lpos) : list nat :=
  List.filter (fun i => match l !! i with Some p => is_unlocked now p | None => false end)
         (seq 0 (length l)).

(** Vec::sort then reverse (voter.rs:158-160): insertion sort, descending. *)
Fixpoint insert_desc (x : nat) (l : list nat) : list nat :=
  match l with
  | [] => [x]
  | y :: l' => if (y <=? x)%nat then x :: l else y :: insert_desc x l'
  end.
(** voter.rs:159-160 *)
Definition sort_desc (l : list nat) : list nat := fold_right insert_desc [] l.

(** voter.rs:157-169 *)
Definition clear_one (now : N) (v : voter) (i : nat) : res voter :=
  p ← get_position v i;
  if is_unlocked now p then
    b ← add128 (v_bal v) (lp_amount p);
    remove_position (v <| v_bal := b |>) i
  else Ok v.
(** voter.rs:157-169 *)
Definition clear_fully_unlocked_positions (now : N) (v : voter) (l : list nat) : res voter :=
  foldM (clear_one now) (sort_desc l) v.

(** locking_position.rs:66-81 *)
Definition increase_locking_position (s : state) (v : voter) (i : nat) (amount days : N)
  : res (state * voter) :=
  vp ← calculate_voting_power amount days;
  p ← get_position v i;
  a' ← add128 (lp_amount p) amount;
  vp' ← add128 (lp_vp p) vp;
  av ← add128 (v_avail v) vp;
  t ← add128 (total_vp s) vp;
  Ok (s <| total_vp := t |>,
      replace_position v i (p <| lp_amount := a' |> <| lp_vp := vp' |>) <| v_avail := av |>).

(** [(len as u8) < max] of locking_position.rs:89-93, 143-147 *)
Definition assert_lps_room (s : state) (v : voter) : res unit :=
  require (N.of_nat (length (v_lps v)) mod 256 <? max_lps s) "The max number of locking positions".

(** locking_position.rs:83-105 *)
Definition internal_create_locking_position (s : state) (v : voter) (amount days : N)
  : res (state * voter) :=
  _ ← assert_lps_room s v;
  _ ← require (match find_locked_position v days with None => true | _ => false end)
        "a locking-position already exists";
  vp ← calculate_voting_power amount days;
  av ← add128 (v_avail v) vp;
  t ← add128 (total_vp s) vp;
  Ok (s <| total_vp := t |>,
      v <| v_lps := v_lps v ++ [mkLpos amount days vp None] |> <| v_avail := av |>).

(** locking_position.rs:107-131.  Returns the saved voter too (the Rust code mutates it). *)
Definition deposit_locking_position (s : state) (amount days : N) (vid : string) (v : voter)
  : res (state * voter) :=
  _ ← require ((min_unbond s <=? days) && (days <=? max_unbond s)) "Unbound period must be between";
  '(s1, v1) ← (match find_locked_position v days with
               | Some i => increase_locking_position s v i amount days
               | None => internal_create_locking_position s v amount days
               end);
  Ok (save_voter s1 vid v1, v1).

(** locking_position.rs:133-155 *)
Definition create_unlocking_position (c : ctx) (s : state) (v : voter) (amount days vp : N)
  : res voter :=
  _ ← assert_lps_room s v;
  Ok (v <| v_lps := v_lps v ++ [mkLpos amount days vp (Some (now_ms c))] |>).

(** ** lib.rs: claim and lock *)

(** lib.rs:208-216 *)
Definition claim_and_lock (c : ctx) (s : state) (amount days : N) : res state :=
  _ ← non_payable c;
  _ ← assert_min_deposit_amount s amount;
  let vid := c_pred c in
  s1 ← remove_claimable_mpdao s vid amount;
  v ← get_voter_or_panic s1 vid;
  '(s2, _) ← deposit_locking_position s1 amount days vid v;
  Ok s2.

(** lib.rs:219-225 and withdraw.rs:108-123 *)
Definition claim_stnear (c : ctx) (s : state) (amount : N) : res (state * list eff) :=
  _ ← non_payable c;
  let vid := c_pred c in
  s1 ← remove_claimable_stnear s vid amount;
  Ok (s1, [PaySt (stnear_addr s1) vid vid amount]).

(** ** lib.rs: unlocking *)

(** lib.rs:231-254.  N subtraction is saturating, like [saturating_sub]. *)
Definition unlock_position (c : ctx) (s : state) (i : nat) : res state :=
  let vid := c_pred c in
  v ← get_voter_or_panic s vid;
  p ← get_position v i;
  let vp := lp_vp p in
  _ ← require (vp <=? v_avail v) "Not enough free voting power to unlock!";
  av ← sub128 (v_avail v) vp;
  let v1 := replace_position v i (p <| lp_unl := Some (now_ms c) |>) <| v_avail := av |> in
  Ok (save_voter (s <| total_vp := total_vp s - vp |>) vid v1).

(** lib.rs:256-306 *)
Definition unlock_partial_position (c : ctx) (s : state) (i : nat) (amount : N) : res state :=
  let vid := c_pred c in
  v ← get_voter_or_panic s vid;
  p ← get_position v i;
  if amount =? lp_amount p then unlock_position c s i
  else
    _ ← require (amount <? lp_amount p) "Amount too large!";
    d ← sub128 (lp_amount p) amount;
    _ ← require (min_deposit s <=? d) "A locking position cannot have less than";
    _ ← assert_at_least_1_mpdao amount;
    vp ← calculate_voting_power amount (lp_days p);
    _ ← require (vp <=? lp_vp p) "Not enough free voting power to unlock! (position)";
    _ ← require (vp <=? v_avail v) "Not enough free voting power to unlock!";
    v1 ← create_unlocking_position c s v amount (lp_days p) vp;
    pvp ← sub128 (lp_vp p) vp;
    pa ← sub128 (lp_amount p) amount;
    _ ← assert_at_least_1_mpdao pa;
    av ← sub128 (v_avail v1) vp;
    let v2 := replace_position v1 i (p <| lp_vp := pvp |> <| lp_amount := pa |>)
              <| v_avail := av |> in
    Ok (save_voter (s <| total_vp := total_vp s - vp |>) vid v2).

(** lib.rs:312-351 *)
Definition locking_position_extend_days (c : ctx) (s : state) (i : nat) (days : N) : res state :=
  _ ← non_payable c;
  let vid := c_pred c in
  v ← get_voter_or_panic s vid;
  p ← get_position v i;
  _ ← require (is_locked p) "position should be locked in order to extend time";
  _ ← require (lp_days p <? days) "new auto-lock period should be greater than previous one";
  nvp ← calculate_voting_power (lp_amount p) days;
  delta ← sub128 nvp (lp_vp p);
  t ← add128 (total_vp s) delta;
  av ← add128 (v_avail v) delta;
  let v1 := replace_position v i (p <| lp_days := days |> <| lp_vp := nvp |>)
            <| v_avail := av |> in
  Ok (save_voter (s <| total_vp := t |>) vid v1).

(** ** lib.rs: re-lock *)

(** lib.rs:357-404 *)
Definition relock_position (c : ctx) (s : state) (i : nat) (days afb : N) : res state :=
  _ ← non_payable c;
  let vid := c_pred c in
  v ← get_voter_or_panic s vid;
  p ← get_position v i;
  _ ← require (afb <=? v_bal v) "Not enough balance.";
  started ← expect (lp_unl p) "Cannot re-lock a locked position.";
  let now := now_ms c in
  let udate := started + days_to_millis (lp_days p) in
  _ ← (if now <? udate
       then require (udate - now <? days_to_millis days) "The new locking period should be greater"
       else Ok tt);
  amount ← add128 (lp_amount p) afb;
  v1 ← remove_position v i;
  b ← sub128 (v_bal v1) afb;
  '(s2, _) ← deposit_locking_position s amount days vid (v1 <| v_bal := b |>);
  Ok s2.

(** lib.rs:406-481 *)
Definition relock_partial_position (c : ctx) (s : state) (i : nat) (afp days afb : N) : res state :=
  _ ← non_payable c;
  let vid := c_pred c in
  v ← get_voter_or_panic s vid;
  p ← get_position v i;
  _ ← require (afb <=? v_bal v) "Not enough balance.";
  _ ← require (afp <=? lp_amount p) "Locking position amount is not enough.";
  amount ← add128 afb afp;
  _ ← require (min_deposit s <=? amount) "A locking position cannot have less than";
  started ← expect (lp_unl p) "Cannot re-lock a locked position.";
  let now := now_ms c in
  let udate := started + days_to_millis (lp_days p) in
  v1 ← (if now <? udate then
          _ ← require (udate - now <? days_to_millis days) "The new locking period should be greater";
          na ← sub128 (lp_amount p) afp;
          _ ← require (min_deposit s <=? amount) "A locking position cannot have less than";
          _ ← require (0 <? na) "Use relock_position() function instead.";
          nvp ← calculate_voting_power na (lp_days p);
          Ok (replace_position v i (p <| lp_amount := na |> <| lp_vp := nvp |>))
        else
          rest ← sub128 (lp_amount p) afp;
          b ← add128 (v_bal v) rest;
          remove_position (v <| v_bal := b |>) i);
  b ← sub128 (v_bal v1) afb;
  '(s2, _) ← deposit_locking_position s amount days vid (v1 <| v_bal := b |>);
  Ok s2.

(** lib.rs:483-503 *)
Definition relock_from_balance (c : ctx) (s : state) (days amount : N) : res state :=
  _ ← non_payable c;
  let vid := c_pred c in
  v ← get_voter_or_panic s vid;
  _ ← require (amount <=? v_bal v) "Not enough balance.";
  _ ← require (min_deposit s <=? amount) "A locking position cannot have less than";
  b ← sub128 (v_bal v) amount;
  '(s2, _) ← deposit_locking_position s amount days vid (v <| v_bal := b |>);
  Ok s2.

(** lib.rs:511-517 *)
Definition clear_locking_position (c : ctx) (s : state) (l : list nat) : res state :=
  _ ← non_payable c;
  _ ← require (match l with [] => false | _ => true end) "Index list is empty.";
  let vid := c_pred c in
  v ← get_voter_or_panic s vid;
  v1 ← clear_fully_unlocked_positions (now_ms c) v l;
  Ok (save_voter s vid v1).

(** ** lib.rs: voting *)

(** lib.rs:567-600 *)
Definition internal_create_voting_position (s : state) (vid : string) (v : voter) (vp : N)
  (addr obj : string) : res (state * voter) :=
  _ ← require (vp <=? v_avail v) "Not enough free voting power.";
  _ ← require (N.of_nat (h_len (v_vp v)) <=? max_vps s) "Cannot exceed voting positions.";
  h ← get_vote_position_for_address s v vid addr;
  o ← uget (hp_vv s) h obj;
  av ← sub128 (v_avail v) vp;
  vts ← add128 (default 0 o) vp;
  '(hpv, h') ← uinsert (hp_vv s) h obj vts;
  '(hpp, vph) ← uinsert (hp_vp s) (v_vp v) addr h';
  s' ← increase_total_votes (s <| hp_vv := hpv |> <| hp_vp := hpp |>) vp addr obj;
  Ok (s', v <| v_avail := av |> <| v_vp := vph |>).

(** lib.rs:537-565 *)
Definition internal_vote (s : state) (vid : string) (vp : N) (addr obj : string) : res state :=
  v ← get_voter_or_panic s vid;
  '(s1, v1) ← internal_create_voting_position s vid v vp addr obj;
  Ok (save_voter s1 vid v1).

(** lib.rs:523-535 *)
Definition vote (c : ctx) (s : state) (vp : N) (addr obj : string) : res state :=
  _ ← non_payable c; internal_vote s (c_pred c) vp addr obj.

(** lib.rs:678-715 *)
Definition internal_remove_voting_position (s : state) (vid : string) (v : voter)
  (addr obj : string) : res (state * voter) :=
  h ← get_vote_position_for_address s v vid addr;
  o ← uget (hp_vv s) h obj;
  x ← expect o "Cannot unvote a Votable Object without votes.";
  av ← add128 (v_avail v) x;
  '(hpv, h') ← uremove (hp_vv s) h obj;
  '(hpp, vph) ← (if (h_len h' =? 0)%nat then uremove (hp_vp s) (v_vp v) addr
                 else uinsert (hp_vp s) (v_vp v) addr h');
  s' ← decrease_total_votes (s <| hp_vv := hpv |> <| hp_vp := hpp |>) x addr obj;
  Ok (s', v <| v_avail := av |> <| v_vp := vph |>).

(** lib.rs:729-741: the votes are locked in *)
Definition votes_locked_in (c : ctx) (s : state) (addr obj : string) : bool :=
  match lock_addr s with
  | Some a =>
      (now_ms c <? lock_end s) && bool_decide (a = addr)
      && str_contains (" #" +:+ pretty (lock_id s) +:+ " ") obj
  | None => false
  end.

(** lib.rs:722-752 *)
Definition internal_unvote (c : ctx) (s : state) (vid addr obj : string) : res state :=
  _ ← require (negb (votes_locked_in c s addr obj)) "you can not remove votes here until";
  v ← get_voter_or_panic s vid;
  '(s1, v1) ← internal_remove_voting_position s vid v addr obj;
  Ok (save_voter s1 vid v1).

(** lib.rs:717-720 *)
Definition unvote (c : ctx) (s : state) (addr obj : string) : res state :=
  _ ← non_payable c; internal_unvote c s (c_pred c) addr obj.

(** lib.rs:602-676 *)
Definition rebalance (c : ctx) (s : state) (vp : N) (addr obj : string) : res state :=
  _ ← non_payable c;
  let vid := c_pred c in
  v ← get_voter_or_panic s vid;
  h ← get_vote_position_for_address s v vid addr;
  o ← uget (hp_vv s) h obj;
  vts ← expect o "Rebalance not allowed for nonexisting Votable Object.";
  _ ← require (negb (vts =? vp)) "Cannot rebalance to same Voting Power.";
  if vp =? 0 then internal_unvote c s vid addr obj
  else
    '(s1, av, vts') ←
      (if vts <? vp then
         add ← sub128 vp vts;
         _ ← require (add <=? v_avail v) "Not enough free voting power to unlock!";
         av ← sub128 (v_avail v) add;
         vts' ← add128 vts add;
         s1 ← increase_total_votes s add addr obj;
         Ok (s1, av, vts')
       else
         rem ← sub128 vts vp;
         av ← add128 (v_avail v) rem;
         vts' ← sub128 vts rem;
         s1 ← decrease_total_votes s rem addr obj;
         Ok (s1, av, vts'));
    '(hpv, h') ← uinsert (hp_vv s1) h obj vts';
    '(hpp, vph) ← uinsert (hp_vp s1) (v_vp v) addr h';
    Ok (save_voter (s1 <| hp_vv := hpv |> <| hp_vp := hpp |>) vid
          (v <| v_avail := av |> <| v_vp := vph |>)).

(** ** lib.rs: owner and operator *)

(** lib.rs:124-140, 147-150 *)
Definition set_stnear_contract (c : ctx) (s : state) (a : string) : res state :=
  _ ← assert_one_yocto c; _ ← assert_only_owner c s; Ok (s <| stnear_addr := a |>).
(** lib.rs:130-134 *)
Definition set_operator_id (c : ctx) (s : state) (a : string) : res state :=
  _ ← assert_one_yocto c; _ ← assert_only_owner c s; Ok (s <| operator_id := a |>).
(** lib.rs:136-140 *)
Definition set_owner_id (c : ctx) (s : state) (a : string) : res state :=
  _ ← assert_one_yocto c; _ ← assert_only_owner c s; Ok (s <| owner_id := a |>).
(** lib.rs:147-150 *)
Definition update_registration_cost (c : ctx) (s : state) (n : N) : res state :=
  _ ← non_payable c; _ ← assert_only_owner c s; Ok (s <| reg_cost := n |>).

(** lib.rs:166-174 *)
Definition update_airdrop_user_data (c : ctx) (s : state) (data : string) : res state :=
  _ ← require (c_deposit c =? reg_cost s) "Pay yoctos for the registration cost";
  Ok (s <| user_data := om_set (user_data s) (c_pred c) data |>).

(** lib.rs:180-186 *)
Definition operator_multi_set_airdrop_data (c : ctx) (s : state) (l : list (string * string))
  : res state :=
  _ ← non_payable c;
  _ ← assert_operator c s;
  Ok (s <| user_data := fold_left (fun m p => om_set m p.1 p.2) l (user_data s) |>).

(** lib.rs:757-767 *)
Definition set_lock_in_vote_filters (c : ctx) (s : state) (end_ms id : N) (a : option string)
  : res state :=
  _ ← non_payable c; _ ← assert_operator c s;
  Ok (s <| lock_end := end_ms |> <| lock_addr := a |> <| lock_id := id |>).

(** lib.rs:777-793 *)
Definition update_min_unbond_period (c : ctx) (s : state) (d : N) : res state :=
  _ ← assert_one_yocto c; _ ← assert_only_owner c s; Ok (s <| min_unbond := d |>).
(** lib.rs:783-787 *)
Definition update_max_unbond_period (c : ctx) (s : state) (d : N) : res state :=
  _ ← assert_one_yocto c; _ ← assert_only_owner c s; Ok (s <| max_unbond := d |>).
(** lib.rs:789-793 *)
Definition set_prev_gov_contract (c : ctx) (s : state) (a : string) : res state :=
  _ ← assert_one_yocto c; _ ← assert_only_owner c s; Ok (s <| prev_gov := a |>).

(** lib.rs:799-830 *)
Definition migration_create_lps (c : ctx) (s : state) (vid : string) (l : list (N * N))
  (data : option string) : res state :=
  _ ← non_payable c;
  _ ← require (bool_decide (c_pred c = prev_gov s)) "Only the old gov contract can call this function.";
  '(s1, _) ← foldM (fun sv lp => deposit_locking_position sv.1 (lp.1 / E18) lp.2 vid sv.2)
               l (s, get_voter s vid);
  match data with
  | None => Ok s1
  | Some d =>
      match om_get (user_data s1) (c_pred c) with
      | Some _ => Ok s1
      | None => Ok (s1 <| user_data := om_set (user_data s1) (c_pred c) d |>)
      end
  end.

(** lib.rs:861-875.  [fuel] stands for the gas limit; the number of vote entries + 1 is given,
    and [mirror_loop_fuel] (MVMirror.v) proves it is enough. *)
Fixpoint mirror_loop (fuel : nat) (s : state) (vid : string) (v : voter) (used new : N)
  : res (state * voter * N) :=
  if new <? used then
    match fuel with
    | O => Panic "Exceeded the prepaid gas"
    | S fuel' =>
        ok ← ukey_at (hp_vp s) (v_vp v) 0;
        addr ← expect ok "unwrap on None";
        oh ← uget (hp_vp s) (v_vp v) addr;
        h ← expect oh "unwrap on None";
        oo ← ukey_at (hp_vv s) h 0;
        obj ← expect oo "unwrap on None";
        ov ← uget (hp_vv s) h obj;
        x ← expect ov "unwrap on None";
        '(s1, v1) ← internal_remove_voting_position s vid v addr obj;
        used' ← sub128 used x;
        mirror_loop fuel' s1 vid v1 used' new
    end
  else Ok (s, v, used).

(** number of (address, object) entries of a voter *)
Definition vote_entries (s : state) (v : voter) : nat :=
  match uvals (hp_vp s) (v_vp v) with
  | Ok hs => fold_right (fun h n => (h_len h + n)%nat) O hs
  | Panic _ => O
  end.

(** lib.rs:834-899 *)
Definition operator_mirror_lps (c : ctx) (s : state) (ext : string) (l : list (N * N)) : res state :=
  _ ← non_payable c;
  _ ← assert_operator c s;
  let vid := pseudo_near_address ext in
  let v := get_voter s vid in
  used ← sum_used_votes s v;
  prev ← add128 (v_avail v) used;
  vps ← mapMr (fun lp => calculate_voting_power lp.2 lp.1) l;
  new ← sum128 vps;
  '(s1, v1, used1) ← mirror_loop (S (vote_entries s v)) s vid v used new;
  let v2 := v1 <| v_lps := [] |> <| v_avail := 0 |> in
  '(s2, v3) ← foldM (fun sv lp => internal_create_locking_position sv.1 sv.2 lp.2 lp.1) l (s1, v2);
  av ← sub128 (v_avail v3) used1;
  t ← sub128 (total_vp s2) prev;
  Ok (save_voter (s2 <| total_vp := t |>) vid (v3 <| v_avail := av |>)).

(** ** evm_delegate.rs *)

(** evm_delegate.rs:13-23 *)
Definition pre_delegate_evm_address (c : ctx) (s : state) (evm sig : string) : res state :=
  _ ← assert_one_yocto c;
  _ ← require (negb (str_contains "." evm)) "evm_address can not contain dots";
  Ok (s <| evm_pre := <[evm := (c_pred c, sig)]> (evm_pre s) |>).

(** evm_delegate.rs:31-35 *)
Definition operator_remove_pre_delegate (c : ctx) (s : state) (evm : string) : res state :=
  _ ← assert_one_yocto c; _ ← assert_operator c s;
  Ok (s <| evm_pre := delete evm (evm_pre s) |>).

(** Vec::retain(|x| !x.eq(e)) *)
Definition retain_ne (e : string) (l : list string) : list string :=
  List.filter (fun x => negb (bool_decide (x = e))) l.

(** evm_delegate.rs:38-75 *)
Definition operator_confirm_delegated (c : ctx) (s : state) (evm : string) : res state :=
  _ ← assert_one_yocto c; _ ← assert_operator c s;
  match evm_pre s !! evm with
  | None => Ok s
  | Some (acct, sig) =>
      let s1 := s <| evm_pre := delete evm (evm_pre s) |> in
      match evm_sigs s1 !! evm with
      | Some (old, _) =>
          if bool_decide (old = acct) then Ok s1
          else
            prevl ← expect (om_get (evm_delegates s1) old) "unwrap on None";
            let prevl' := retain_ne evm prevl in
            let d1 := match prevl' with
                      | [] => om_remove (evm_delegates s1) old
                      | _ => om_set (evm_delegates s1) old prevl'
                      end in
            let l := default [] (om_get d1 acct) in
            Ok (s1 <| evm_delegates := om_set d1 acct (l ++ [evm]) |>
                   <| evm_sigs := <[evm := (acct, sig)]> (evm_sigs s1) |>)
      | None =>
          let l := default [] (om_get (evm_delegates s1) acct) in
          Ok (s1 <| evm_delegates := om_set (evm_delegates s1) acct (l ++ [evm]) |>
                 <| evm_sigs := <[evm := (acct, sig)]> (evm_sigs s1) |>)
      end
  end.

(** evm_delegate.rs:96-111 *)
Definition verify_delegate (c : ctx) (s : state) (evm : string) : res string :=
  _ ← require (bool_decide (evm ∈ default [] (om_get (evm_delegates s) (c_pred c))))
        "is not delegated to";
  Ok (pseudo_near_address evm).

(** evm_delegate.rs:78-93 *)
Definition delegated_claim_stnear (c : ctx) (s : state) (evm : string) (amount : N)
  : res (state * list eff) :=
  pseudo ← verify_delegate c s evm;
  s1 ← remove_claimable_stnear s pseudo amount;
  Ok (s1, [PaySt (stnear_addr s1) pseudo (c_pred c) amount]).

(** evm_delegate.rs:113-128 *)
Definition vote_delegated (c : ctx) (s : state) (evm : string) (vp : N) (addr obj : string)
  : res state :=
  _ ← non_payable c;
  pseudo ← verify_delegate c s evm;
  internal_vote s pseudo vp addr obj.

(** evm_delegate.rs:130-139 *)
Definition unvote_delegated (c : ctx) (s : state) (evm addr obj : string) : res state :=
  _ ← non_payable c;
  pseudo ← verify_delegate c s evm;
  internal_unvote c s pseudo addr obj.

(** evm_delegate.rs:142-163 *)
Definition remove_delegated_evm_address (c : ctx) (s : state) (evm : string) : res state :=
  _ ← assert_one_yocto c;
  match evm_sigs s !! evm with
  | Some (acct, _) =>
      if bool_decide (acct = c_pred c) then
        l ← expect (om_get (evm_delegates s) (c_pred c)) "unwrap on None";
        Ok (s <| evm_sigs := delete evm (evm_sigs s) |>
              <| evm_delegates := om_set (evm_delegates s) (c_pred c) (retain_ne evm l) |>)
      else Panic "note delegated to you"
  | None => Panic "note delegated"
  end.

(** ** withdraw.rs *)

(** withdraw.rs:11-41 *)
Definition internal_withdraw (c : ctx) (s : state) (vid : string) (l : list nat) (amt : option N)
  : res (state * list eff) :=
  _ ← assert_one_yocto c;
  v ← get_voter_or_panic s vid;
  v1 ← (match l with
        | [] => Ok v
        | _ => clear_fully_unlocked_positions (now_ms c) v l
        end);
  let total := default (v_bal v1) amt in
  _ ← require (0 <? total) "Nothing to withdraw.";
  _ ← require (total <=? v_bal v1) "Not enough balance.";
  b ← sub128 (v_bal v1) total;
  let v2 := v1 <| v_bal := b |> in
  let s1 := if voter_is_empty v2 then s <| voters := om_remove (voters s) vid |>
            else save_voter s vid v2 in
  Ok (s1, [PayMp vid total]).

(** withdraw.rs:44-52 *)
Definition withdraw (c : ctx) (s : state) (l : list nat) (amount : N) : res (state * list eff) :=
  internal_withdraw c s (c_pred c) l (if amount =? 0 then None else Some amount).

(** withdraw.rs:55-60 *)
Definition withdraw_all (c : ctx) (s : state) : res (state * list eff) :=
  v ← get_voter_or_panic s (c_pred c);
  internal_withdraw c s (c_pred c) (unlocked_indexes (now_ms c) (v_lps v)) None.

(** withdraw.rs:79-105 ([ok]: the promise result is Successful) *)
Definition after_transfer_mpdao_callback (c : ctx) (s : state) (vid : string) (amount : N)
  (ok : bool) : res state :=
  _ ← assert_private c (self_id s);
  _ ← non_payable c;
  if ok then Ok s
  else
    let v := get_voter s vid in
    b ← add128 (v_bal v) amount;
    Ok (save_voter s vid (v <| v_bal := b |>)).

(** withdraw.rs:126-142 *)
Definition after_transfer_stnear_callback (c : ctx) (s : state) (source : string) (amount : N)
  (ok : bool) : res state :=
  _ ← assert_private c (self_id s);
  _ ← non_payable c;
  if ok then Ok s else add_claimable_stnear s source amount.

(** ** deposit.rs *)

(** deposit.rs:70-107 *)
Definition distribute_for_claims (c : ctx) (s : state) (total : N) (l : list (string * N))
  : res state :=
  '(s2, distributed) ←
    (if bool_decide (c_pred c = mpdao_addr s) then
       '(s1, d) ← foldM (fun sd item =>
                           a ← mul128 item.2 1000000;
                           s' ← add_claimable_mpdao sd.1 item.1 a;
                           d' ← add128 sd.2 a;
                           Ok (s', d')) l (s, 0);
       acc ← add128 (accum_mp s1) d;
       Ok (s1 <| accum_mp := acc |>, d)
     else if bool_decide (c_pred c = stnear_addr s) then
       '(s1, d) ← foldM (fun sd item =>
                           a ← mul128 item.2 E20;
                           s' ← add_claimable_stnear sd.1 item.1 a;
                           d' ← add128 sd.2 a;
                           Ok (s', d')) l (s, 0);
       acc ← add128 (accum_st s1) d;
       Ok (s1 <| accum_st := acc |>, d)
     else Panic "Unknown token address");
  _ ← require (distributed =? total) "total to distribute != total_amount sent";
  Ok s2.

(** deposit.rs:23, 37: prefix tests, with the slicing panic of Rust *)
Definition CLAIMS_PREFIX : string := "for-claims:".
Definition msg_is_for_claims (msg : string) : res bool :=
  if (11 <=? String.length msg)%nat then
    _ ← require (char_boundary 11 msg) "byte index 11 is not a char boundary";
    Ok (bool_decide (String.substring 0 11 msg = CLAIMS_PREFIX))
  else Ok false.
Definition msg_is_pair (msg : string) : res bool :=
  if (1 <=? String.length msg)%nat then
    _ ← require (char_boundary 1 msg) "byte index 1 is not a char boundary";
    Ok (bool_decide (String.substring 0 1 msg = "["))
  else Ok false.

(** deposit.rs:13-64.  Returns the unused amount, always 0 (deposit.rs:63). *)
Definition ft_on_transfer (c : ctx) (s : state) (sender : string) (amount : N) (msg : string)
  : res (state * N) :=
  _ ← non_payable c;
  fc ← msg_is_for_claims msg;
  if (fc : bool) then
    l ← expect (c_json_claims c (String.substring 11 (String.length msg - 11) msg))
          "Err parsing msg for-claims";
    _ ← require (forallb (fun p => p.2 <? U64_SIZE) l) "Err parsing msg for-claims";
    s' ← distribute_for_claims c s amount l;
    Ok (s', 0)
  else
    _ ← require (bool_decide (c_pred c = mpdao_addr s)) "You can only bond mpDAO-token";
    ip ← msg_is_pair msg;
    '(vid, days) ←
      (if (ip : bool) then
         pr ← expect (c_json_pair c msg) "Err parsing msg, expected [voter_id,days]";
         _ ← require (pr.2 <? U16_SIZE) "Err parsing msg, expected [voter_id,days]";
         _ ← require (bool_decide (sender = owner_id s)) "only allowed for owner";
         Ok pr
       else
         d ← expect (parse_u16 msg) "Err parsing bonding_days from msg. Must be u16";
         Ok (sender, d));
    _ ← assert_min_deposit_amount s amount;
    '(s', _) ← deposit_locking_position s amount days vid (get_voter s vid);
    Ok (s', 0).

(** ** The contract as a transition system *)

Inductive op :=
| SetStnear (a : string)
| SetOperator (a : string)
| SetOwner (a : string)
| UpdateRegCost (n : N)
| UpdateAirdrop (data : string)
| OpMultiSetAirdrop (l : list (string * string))
| ClaimAndLock (amount days : N)
| ClaimStnear (amount : N)
| Unlock (i : nat)
| UnlockPartial (i : nat) (amount : N)
| ExtendDays (i : nat) (days : N)
| Relock (i : nat) (days afb : N)
| RelockPartial (i : nat) (afp days afb : N)
| RelockFromBalance (days amount : N)
| ClearPositions (l : list nat)
| Vote (vp : N) (addr obj : string)
| Rebalance (vp : N) (addr obj : string)
| Unvote (addr obj : string)
| SetLockIn (end_ms id : N) (a : option string)
| UpdateMinUnbond (d : N)
| UpdateMaxUnbond (d : N)
| SetPrevGov (a : string)
| MigrationCreateLps (vid : string) (l : list (N * N)) (data : option string)
| MirrorLps (ext : string) (l : list (N * N))
| PreDelegate (evm sig : string)
| OpRemovePre (evm : string)
| OpConfirm (evm : string)
| DelegatedClaim (evm : string) (amount : N)
| VoteDelegated (evm : string) (vp : N) (addr obj : string)
| UnvoteDelegated (evm addr obj : string)
| RemoveDelegated (evm : string)
| Withdraw (l : list nat) (amount : N)
| WithdrawAll
| AfterMp (vid : string) (amount : N) (ok : bool)
| AfterSt (source : string) (amount : N) (ok : bool)
| FtOnTransfer (sender : string) (amount : N) (msg : string).

Definition noeff (r : res state) : res (state * list eff) := s ← r; Ok (s, []).

(** One receipt. *)
Definition exec (c : ctx) (s : state) (o : op) : res (state * list eff) :=
  match o with
  | SetStnear a => noeff (set_stnear_contract c s a)
  | SetOperator a => noeff (set_operator_id c s a)
  | SetOwner a => noeff (set_owner_id c s a)
  | UpdateRegCost n => noeff (update_registration_cost c s n)
  | UpdateAirdrop d => noeff (update_airdrop_user_data c s d)
  | OpMultiSetAirdrop l => noeff (operator_multi_set_airdrop_data c s l)
  | ClaimAndLock a d => noeff (claim_and_lock c s a d)
  | ClaimStnear a => claim_stnear c s a
  | Unlock i => noeff (_ ← non_payable c; unlock_position c s i)
  | UnlockPartial i a => noeff (_ ← non_payable c; unlock_partial_position c s i a)
  | ExtendDays i d => noeff (locking_position_extend_days c s i d)
  | Relock i d a => noeff (relock_position c s i d a)
  | RelockPartial i p d a => noeff (relock_partial_position c s i p d a)
  | RelockFromBalance d a => noeff (relock_from_balance c s d a)
  | ClearPositions l => noeff (clear_locking_position c s l)
  | Vote p a b => noeff (vote c s p a b)
  | Rebalance p a b => noeff (rebalance c s p a b)
  | Unvote a b => noeff (unvote c s a b)
  | SetLockIn e i a => noeff (set_lock_in_vote_filters c s e i a)
  | UpdateMinUnbond d => noeff (update_min_unbond_period c s d)
  | UpdateMaxUnbond d => noeff (update_max_unbond_period c s d)
  | SetPrevGov a => noeff (set_prev_gov_contract c s a)
  | MigrationCreateLps v l d => noeff (migration_create_lps c s v l d)
  | MirrorLps e l => noeff (operator_mirror_lps c s e l)
  | PreDelegate e g => noeff (pre_delegate_evm_address c s e g)
  | OpRemovePre e => noeff (operator_remove_pre_delegate c s e)
  | OpConfirm e => noeff (operator_confirm_delegated c s e)
  | DelegatedClaim e a => delegated_claim_stnear c s e a
  | VoteDelegated e p a b => noeff (vote_delegated c s e p a b)
  | UnvoteDelegated e a b => noeff (unvote_delegated c s e a b)
  | RemoveDelegated e => noeff (remove_delegated_evm_address c s e)
  | Withdraw l a => withdraw c s l a
  | WithdrawAll => withdraw_all c s
  | AfterMp v a k => noeff (after_transfer_mpdao_callback c s v a k)
  | AfterSt v a k => noeff (after_transfer_stnear_callback c s v a k)
  | FtOnTransfer x a m => '(s', _) ← ft_on_transfer c s x a m; Ok (s', [])
  end.

Definition call := (ctx * op)%type.

(** A panicking receipt leaves the state unchanged. *)
Definition step (s : state) (x : call) : state :=
  match exec x.1 s x.2 with Ok (s', _) => s' | Panic _ => s end.

Definition run (s : state) (tr : list call) : state := fold_left step tr s.
