(** MVBytes.v -- the voting contract on the bytes of the storage: meta-vote-contract/src with the STATE record that #[near_bindgen]
    loads and saves around its methods, Borsh, and near_sdk collections::{UnorderedMap, Vector} and store::LookupMap on the
    account's storage, with the maps inside the records of other maps.

    near-sdk 4.1 and Borsh are not in /repo; they are written from the published libraries.  Paths are relative to
    /repo/meta-vote-contract/src.  [H] is keccak256.
    Simplified: Borsh's checks that a decoded string is UTF-8 and a decoded account id is valid are left out; the searches through
    the positions of a voter read all of them first; a LookupMap writes at once what the code writes when the call ends.
    Not modelled here: log lines, gas, the views, migrate(). *)

From Verif Require Export BoardBytes.
From RecordUpdate Require Import RecordUpdate.

Global Instance eta_newroot : Settable newroot := settable! mkNewRoot
  <n_owner_id; n_operator_id; n_voters; n_votes; n_min_unbond_period; n_max_unbond_period; n_min_deposit_amount;
   n_max_locking_positions; n_max_voting_positions; n_mpdao_token_contract_address; n_total_voting_power;
   n_claimable_mpdao; n_accumulated_mpdao_distributed_for_claims; n_total_unclaimed_mpdao;
   n_stnear_token_contract_address; n_claimable_stnear; n_accum_distributed_stnear_for_claims; n_total_unclaimed_stnear;
   n_registration_cost; n_associated_user_data; n_prev_governance_contract; n_evm_delegates; n_evm_pre_delegation;
   n_evm_delegation_signatures; n_lock_votes_in_end_timestamp_ms; n_lock_votes_in_address; n_lock_votes_in_numeric_id>.

(** ** Borsh *)
(** locking_position.rs:6-11 *)
Definition enc_lpos (p : lpos) : string := enc_uint 16 (lp_amount p) +:+ enc_uint 2 (lp_days p) +:+ enc_uint 16 (lp_vp p) +:+ enc_onum 8 (lp_unl p).
Definition dec_lpos (b : string) : option (lpos * string) :=
  '(a, b) ← dec_uint 16 b; '(d, b) ← dec_uint 2 b; '(v, b) ← dec_uint 16 b; '(u, b) ← dec_onum 8 b; Some (mkLpos a d v u, b).
(** near_sdk collections::Vector { len, prefix } *)
Record vech := mkVech { vh_len : N; vh_pre : string }.
Definition enc_vech (h : vech) : string := enc_uint 8 (vh_len h) +:+ enc_str (vh_pre h).
Definition dec_vech (b : string) : option (vech * string) := '(n, b) ← dec_uint 8 b; '(p, b) ← dec_str b; Some (mkVech n p, b).
(** voter.rs:15-21 *)
Record bvoter := mkBvoter { w_bal : N; w_lps : vech; w_avail : N; w_vp : umh }.
Global Instance eta_bvoter : Settable bvoter := settable! mkBvoter <w_bal; w_lps; w_avail; w_vp>.
Definition enc_bvoter (w : bvoter) : string := enc_uint 16 (w_bal w) +:+ enc_vech (w_lps w) +:+ enc_uint 16 (w_avail w) +:+ enc_umh (w_vp w).
Definition dec_bvoter (b : string) : option (bvoter * string) :=
  '(x, b) ← dec_uint 16 b; '(l, b) ← dec_vech b; '(y, b) ← dec_uint 16 b; '(h, b) ← dec_umh b; Some (mkBvoter x l y h, b).
(** Vec<String>, (String, String) *)
Definition enc_strs (l : list string) : string := enc_uint 4 (N.of_nat (length l)) +:+ fold_right (fun x b => enc_str x +:+ b) "" l.
Fixpoint dec_strs_n (n : nat) (b : string) : option (list string * string) :=
  match n with O => Some ([], b) | S n => '(x, b) ← dec_str b; '(l, b) ← dec_strs_n n b; Some (x :: l, b) end.
Definition dec_strs (b : string) : option (list string * string) := '(n, b) ← dec_uint 4 b; dec_strs_n (N.to_nat n) b.
Definition enc_pair (p : string * string) : string := enc_str p.1 +:+ enc_str p.2.
Definition dec_pair (b : string) : option ((string * string) * string) := '(x, b) ← dec_str b; '(y, b) ← dec_str b; Some ((x, y), b).
Definition dec_u128 : string -> option (N * string) := dec_uint 16.

(** ** near_sdk collections::Vector<LockingPosition> *)
Definition p_get (st : flat) (h : vech) (i : nat) : res (option lpos) := o ← fvec_get st (vh_pre h) (N.to_nat (vh_len h)) i; de_o dec_lpos o.
Definition p_all (st : flat) (h : vech) : res (list lpos) :=
  mapMr (fun i => o ← p_get st h i; expect o "inconsistent state") (seq 0 (N.to_nat (vh_len h))).
Definition p_push (st : flat) (h : vech) (p : lpos) : res (flat * vech) :=
  n ← add64 (vh_len h) 1; Ok (<[vec_key (vh_pre h) (N.to_nat (vh_len h)) := enc_lpos p]> st, mkVech n (vh_pre h)).
Definition p_replace (st : flat) (h : vech) (i : nat) (p : lpos) : res flat :=
  _ ← require (i <? N.to_nat (vh_len h))%nat "index out of bounds";
  match st !! vec_key (vh_pre h) i with
  | Some old => _ ← de dec_lpos old; Ok (<[vec_key (vh_pre h) i := enc_lpos p]> st)
  | None => Panic "inconsistent state"
  end.
Definition p_swap_remove (st : flat) (h : vech) (i : nat) : res (flat * vech) :=
  o ← fvec_get st (vh_pre h) (N.to_nat (vh_len h)) i;
  st' ← fvec_swap_remove st (vh_pre h) (N.to_nat (vh_len h)) i;
  _ ← de_o dec_lpos o; Ok (st', mkVech (vh_len h - 1) (vh_pre h)).
Definition p_clear (st : flat) (h : vech) : flat * vech :=
  (fold_left (fun st i => delete (vec_key (vh_pre h) i) st) (seq 0 (N.to_nat (vh_len h))) st, mkVech 0 (vh_pre h)).

(** ** The contract while a method runs: the storage, and the root struct in memory *)
Record bx := mkX { xst : flat; xr : newroot }.
Global Instance eta_bx : Settable bx := settable! mkX <xst; xr>.
Definition with_root (x : bx) (f : newroot -> newroot) : bx := mkX (xst x) (f (xr x)).

Section Keccak.
Variable H : string -> string.

(** ** internal.rs *)
Definition xb_owner (c : ctx) (x : bx) : res unit := require (bool_decide (n_owner_id (xr x) = c_pred c)) "Only the owner can call this function.".
Definition xb_operator (c : ctx) (x : bx) : res unit := require (bool_decide (n_operator_id (xr x) = c_pred c)) "Only the operator can call this function.".
Definition xb_min_deposit (x : bx) (n : N) : res unit := require (n_min_deposit_amount (xr x) <=? n) "Minimum deposit amount".
(** voter.rs:24-35 *)
Definition xb_new_voter (id : string) : bvoter := mkBvoter 0 (mkVech 0 (sk1 H 0 id)) 0 (umh_new (sk1 H 1 id)).
(** internal.rs:26-30, 31-36 *)
Definition xb_find (x : bx) (id : string) : res (option bvoter) := u_get dec_bvoter (xst x) (n_voters (xr x)) (enc_str id).
Definition xb_get (x : bx) (id : string) : res bvoter := o ← xb_find x id; Ok (default (xb_new_voter id) o).
Definition xb_voter (x : bx) (id : string) : res bvoter := o ← xb_find x id; expect o "invalid voter_id".
(** self.voters.insert, self.voters.remove *)
Definition xb_save (x : bx) (id : string) (w : bvoter) : res bx :=
  '(st, h) ← u_put dec_bvoter (xst x) (n_voters (xr x)) (enc_str id) (enc_bvoter w); Ok (mkX st (xr x <| n_voters := h |>)).
Definition xb_drop (x : bx) (id : string) : res bx :=
  '(st, h) ← u_del dec_bvoter (xst x) (n_voters (xr x)) (enc_str id); Ok (mkX st (xr x <| n_voters := h |>)).
(** internal.rs:38-47 *)
Definition xb_tally (x : bx) (addr : string) : res umh :=
  o ← u_get dec_umh (xst x) (n_votes (xr x)) (enc_str addr); Ok (default (umh_new (sk1 H 4 addr)) o).
(** internal.rs:49-61 *)
Definition xb_increase_total (x : bx) (vp : N) (addr obj : string) : res bx :=
  h ← xb_tally x addr;
  o ← u_get dec_u128 (xst x) h (enc_str obj);
  v ← add128 (default 0 o) vp;
  '(st1, h1) ← u_put dec_u128 (xst x) h (enc_str obj) (enc_uint 16 v);
  '(st2, h2) ← u_put dec_umh st1 (n_votes (xr x)) (enc_str addr) (enc_umh h1);
  Ok (mkX st2 (xr x <| n_votes := h2 |>)).
(** internal.rs:63-87 *)
Definition xb_decrease_total (x : bx) (vp : N) (addr obj : string) : res bx :=
  h ← xb_tally x addr;
  o ← u_get dec_u128 (xst x) h (enc_str obj);
  v ← expect o "Cannot decrease if the Contract Address has no Votable Object.";
  _ ← require (vp <=? v) "Decreasing total is too large.";
  v' ← sub128 v vp;
  '(st1, h1) ← (if v' =? 0 then u_del dec_u128 (xst x) h (enc_str obj) else u_put dec_u128 (xst x) h (enc_str obj) (enc_uint 16 v'));
  n ← b_len h1;
  '(st2, h2) ← (if n =? 0 then u_del dec_umh st1 (n_votes (xr x)) (enc_str addr)
                else u_put dec_umh st1 (n_votes (xr x)) (enc_str addr) (enc_umh h1));
  Ok (mkX st2 (xr x <| n_votes := h2 |>)).
(** internal.rs:93-103, 105-127: on one of the two maps *)
Definition xb_add_claim (st : flat) (h : umh) (total : N) (acct : string) (n : N) : res (flat * umh * N) :=
  o ← u_get dec_u128 st h (enc_str acct);
  v ← add128 (default 0 o) n;
  '(st', h') ← u_put dec_u128 st h (enc_str acct) (enc_uint 16 v);
  t ← add128 total n; Ok (st', h', t).
Definition xb_sub_claim (st : flat) (h : umh) (total : N) (acct : string) (n : N) : res (flat * umh * N) :=
  o ← u_get dec_u128 st h (enc_str acct);
  let v := default 0 o in
  _ ← require (n <=? v) "you don't have enough claimable";
  v' ← sub128 v n;
  '(st', h') ← (if v' =? 0 then u_del dec_u128 st h (enc_str acct) else u_put dec_u128 st h (enc_str acct) (enc_uint 16 v'));
  t ← sub128 total n; Ok (st', h', t).
(** internal.rs:129-167 *)
Definition with_mp (x : bx) (st : flat) (h : umh) (t : N) : bx := mkX st (xr x <| n_claimable_mpdao := h |> <| n_total_unclaimed_mpdao := t |>).
Definition with_stn (x : bx) (st : flat) (h : umh) (t : N) : bx := mkX st (xr x <| n_claimable_stnear := h |> <| n_total_unclaimed_stnear := t |>).
Definition xb_add_mp (x : bx) (acct : string) (n : N) : res bx :=
  _ ← require (0 <? n) "assertion failed: amount > 0";
  '(st, h, t) ← xb_add_claim (xst x) (n_claimable_mpdao (xr x)) (n_total_unclaimed_mpdao (xr x)) acct n; Ok (with_mp x st h t).
Definition xb_add_st (x : bx) (acct : string) (n : N) : res bx :=
  _ ← require (0 <? n) "assertion failed: amount > 0";
  '(st, h, t) ← xb_add_claim (xst x) (n_claimable_stnear (xr x)) (n_total_unclaimed_stnear (xr x)) acct n; Ok (with_stn x st h t).
Definition xb_sub_mp (x : bx) (acct : string) (n : N) : res bx :=
  '(st, h, t) ← xb_sub_claim (xst x) (n_claimable_mpdao (xr x)) (n_total_unclaimed_mpdao (xr x)) acct n; Ok (with_mp x st h t).
Definition xb_sub_st (x : bx) (acct : string) (n : N) : res bx :=
  '(st, h, t) ← xb_sub_claim (xst x) (n_claimable_stnear (xr x)) (n_total_unclaimed_stnear (xr x)) acct n; Ok (with_stn x st h t).

(** ** voter.rs and locking_position.rs *)
(** voter.rs:90-94 *)
Definition xb_pos (x : bx) (w : bvoter) (i : nat) : res lpos := o ← p_get (xst x) (w_lps w) i; expect o "Index out of range!".
(** voter.rs:96-98 *)
Definition xb_remove_pos (x : bx) (w : bvoter) (i : nat) : res (bx * bvoter) :=
  '(st, h) ← p_swap_remove (xst x) (w_lps w) i; Ok (mkX st (xr x), w <| w_lps := h |>).
Definition xb_push_pos (x : bx) (w : bvoter) (p : lpos) : res (bx * bvoter) :=
  '(st, h) ← p_push (xst x) (w_lps w) p; Ok (mkX st (xr x), w <| w_lps := h |>).
Definition xb_replace_pos (x : bx) (w : bvoter) (i : nat) (p : lpos) : res bx :=
  st ← p_replace (xst x) (w_lps w) i p; Ok (mkX st (xr x)).
(** voter.rs:71-77 *)
Definition m_vals {A} (d : string -> option (A * string)) (st : flat) (h : umh) : res (list A) :=
  mapMr (fun i => o ← u_val d st h i; expect o "inconsistent state") (seq 0 (N.to_nat (um_vlen h))).
Definition xb_used (x : bx) (w : bvoter) : res N :=
  hs ← m_vals dec_umh (xst x) (w_vp w);
  foldM (fun acc h => vs ← m_vals dec_u128 (xst x) h; t ← sum128 vs; add128 acc t) hs 0.
(** voter.rs:79-88 *)
Definition xb_find_locked (x : bx) (w : bvoter) (days : N) : res (option nat) := l ← p_all (xst x) (w_lps w); Ok (find_locked_from 0 l days).
(** voter.rs:100-111 *)
Definition xb_votes_for (x : bx) (w : bvoter) (vid addr : string) : res umh :=
  o ← u_get dec_umh (xst x) (w_vp w) (enc_str addr); Ok (default (umh_new (sk1 H 5 (vkey vid addr))) o).
(** voter.rs:113-125 *)
Definition xb_unlocked_indexes (now : N) (x : bx) (w : bvoter) : res (list nat) := l ← p_all (xst x) (w_lps w); Ok (unlocked_indexes now l).
(** voter.rs:157-169 *)
Definition xb_clear_one (now : N) (xw : bx * bvoter) (i : nat) : res (bx * bvoter) :=
  p ← xb_pos xw.1 xw.2 i;
  if is_unlocked now p then b ← add128 (w_bal xw.2) (lp_amount p); xb_remove_pos xw.1 (xw.2 <| w_bal := b |>) i else Ok xw.
Definition xb_clear (now : N) (x : bx) (w : bvoter) (l : list nat) : res (bx * bvoter) := foldM (xb_clear_one now) (sort_desc l) (x, w).
(** locking_position.rs:66-81 *)
Definition with_total (x : bx) (t : N) : bx := with_root x (fun r => r <| n_total_voting_power := t |>).
Definition xb_increase (x : bx) (w : bvoter) (i : nat) (amount days : N) : res (bx * bvoter) :=
  vp ← calculate_voting_power amount days;
  p ← xb_pos x w i;
  a' ← add128 (lp_amount p) amount;
  vp' ← add128 (lp_vp p) vp;
  x1 ← xb_replace_pos x w i (p <| lp_amount := a' |> <| lp_vp := vp' |>);
  av ← add128 (w_avail w) vp;
  t ← add128 (n_total_voting_power (xr x)) vp;
  Ok (with_total x1 t, w <| w_avail := av |>).
(** locking_position.rs:89-93 *)
Definition xb_room (x : bx) (w : bvoter) : res unit :=
  require (vh_len (w_lps w) mod 256 <? n_max_locking_positions (xr x)) "The max number of locking positions".
(** locking_position.rs:83-105 *)
Definition xb_create (x : bx) (w : bvoter) (amount days : N) : res (bx * bvoter) :=
  _ ← xb_room x w;
  o ← xb_find_locked x w days;
  _ ← require (match o with None => true | _ => false end) "a locking-position already exists";
  vp ← calculate_voting_power amount days;
  '(x1, w1) ← xb_push_pos x w (mkLpos amount days vp None);
  av ← add128 (w_avail w1) vp;
  t ← add128 (n_total_voting_power (xr x1)) vp;
  Ok (with_total x1 t, w1 <| w_avail := av |>).
(** locking_position.rs:107-131 *)
Definition xb_deposit (x : bx) (amount days : N) (vid : string) (w : bvoter) : res (bx * bvoter) :=
  _ ← require ((n_min_unbond_period (xr x) <=? days) && (days <=? n_max_unbond_period (xr x))) "Unbound period must be between";
  o ← xb_find_locked x w days;
  '(x1, w1) ← (match o with Some i => xb_increase x w i amount days | None => xb_create x w amount days end);
  x2 ← xb_save x1 vid w1; Ok (x2, w1).
(** locking_position.rs:133-155 *)
Definition xb_create_unlocking (c : ctx) (x : bx) (w : bvoter) (amount days vp : N) : res (bx * bvoter) :=
  _ ← xb_room x w; xb_push_pos x w (mkLpos amount days vp (Some (now_ms c))).

(** ** lib.rs *)
(** lib.rs:208-216 *)
Definition xb_claim_and_lock (c : ctx) (x : bx) (amount days : N) : res bx :=
  _ ← non_payable c; _ ← xb_min_deposit x amount;
  x1 ← xb_sub_mp x (c_pred c) amount;
  w ← xb_voter x1 (c_pred c);
  '(x2, _) ← xb_deposit x1 amount days (c_pred c) w; Ok x2.
(** lib.rs:219-225 *)
Definition xb_claim_stnear (c : ctx) (x : bx) (amount : N) : res (bx * list eff) :=
  _ ← non_payable c;
  x1 ← xb_sub_st x (c_pred c) amount;
  Ok (x1, [PaySt (n_stnear_token_contract_address (xr x1)) (c_pred c) (c_pred c) amount]).
(** lib.rs:231-254 *)
Definition xb_unlock (c : ctx) (x : bx) (i : nat) : res bx :=
  let vid := c_pred c in
  w ← xb_voter x vid;
  p ← xb_pos x w i;
  let vp := lp_vp p in
  _ ← require (vp <=? w_avail w) "Not enough free voting power to unlock!";
  x1 ← xb_replace_pos x w i (p <| lp_unl := Some (now_ms c) |>);
  av ← sub128 (w_avail w) vp;
  xb_save (with_total x1 (n_total_voting_power (xr x) - vp)) vid (w <| w_avail := av |>).
(** lib.rs:256-306 *)
Definition xb_unlock_partial (c : ctx) (x : bx) (i : nat) (amount : N) : res bx :=
  let vid := c_pred c in
  w ← xb_voter x vid;
  p ← xb_pos x w i;
  if amount =? lp_amount p then xb_unlock c x i
  else
    _ ← require (amount <? lp_amount p) "Amount too large!";
    d ← sub128 (lp_amount p) amount;
    _ ← require (n_min_deposit_amount (xr x) <=? d) "A locking position cannot have less than";
    _ ← assert_at_least_1_mpdao amount;
    vp ← calculate_voting_power amount (lp_days p);
    _ ← require (vp <=? lp_vp p) "Not enough free voting power to unlock! (position)";
    _ ← require (vp <=? w_avail w) "Not enough free voting power to unlock!";
    '(x1, w1) ← xb_create_unlocking c x w amount (lp_days p) vp;
    pvp ← sub128 (lp_vp p) vp;
    pa ← sub128 (lp_amount p) amount;
    _ ← assert_at_least_1_mpdao pa;
    av ← sub128 (w_avail w1) vp;
    x2 ← xb_replace_pos x1 w1 i (p <| lp_vp := pvp |> <| lp_amount := pa |>);
    xb_save (with_total x2 (n_total_voting_power (xr x) - vp)) vid (w1 <| w_avail := av |>).
(** lib.rs:312-351 *)
Definition xb_extend (c : ctx) (x : bx) (i : nat) (days : N) : res bx :=
  _ ← non_payable c;
  let vid := c_pred c in
  w ← xb_voter x vid;
  p ← xb_pos x w i;
  _ ← require (is_locked p) "position should be locked in order to extend time";
  _ ← require (lp_days p <? days) "new auto-lock period should be greater than previous one";
  nvp ← calculate_voting_power (lp_amount p) days;
  delta ← sub128 nvp (lp_vp p);
  t ← add128 (n_total_voting_power (xr x)) delta;
  av ← add128 (w_avail w) delta;
  x1 ← xb_replace_pos x w i (p <| lp_days := days |> <| lp_vp := nvp |>);
  xb_save (with_total x1 t) vid (w <| w_avail := av |>).
(** lib.rs:357-404 *)
Definition xb_relock (c : ctx) (x : bx) (i : nat) (days afb : N) : res bx :=
  _ ← non_payable c;
  let vid := c_pred c in
  w ← xb_voter x vid;
  p ← xb_pos x w i;
  _ ← require (afb <=? w_bal w) "Not enough balance.";
  started ← expect (lp_unl p) "Cannot re-lock a locked position.";
  let now := now_ms c in
  let udate := started + days_to_millis (lp_days p) in
  _ ← (if now <? udate then require (udate - now <? days_to_millis days) "The new locking period should be greater" else Ok tt);
  amount ← add128 (lp_amount p) afb;
  '(x1, w1) ← xb_remove_pos x w i;
  b ← sub128 (w_bal w1) afb;
  '(x2, _) ← xb_deposit x1 amount days vid (w1 <| w_bal := b |>); Ok x2.
(** lib.rs:406-481 *)
Definition xb_relock_partial (c : ctx) (x : bx) (i : nat) (afp days afb : N) : res bx :=
  _ ← non_payable c;
  let vid := c_pred c in
  w ← xb_voter x vid;
  p ← xb_pos x w i;
  _ ← require (afb <=? w_bal w) "Not enough balance.";
  _ ← require (afp <=? lp_amount p) "Locking position amount is not enough.";
  amount ← add128 afb afp;
  _ ← require (n_min_deposit_amount (xr x) <=? amount) "A locking position cannot have less than";
  started ← expect (lp_unl p) "Cannot re-lock a locked position.";
  let now := now_ms c in
  let udate := started + days_to_millis (lp_days p) in
  '(x1, w1) ← (if now <? udate then
          _ ← require (udate - now <? days_to_millis days) "The new locking period should be greater";
          na ← sub128 (lp_amount p) afp;
          _ ← require (n_min_deposit_amount (xr x) <=? amount) "A locking position cannot have less than";
          _ ← require (0 <? na) "Use relock_position() function instead.";
          nvp ← calculate_voting_power na (lp_days p);
          x1 ← xb_replace_pos x w i (p <| lp_amount := na |> <| lp_vp := nvp |>);
          Ok (x1, w)
        else
          rest ← sub128 (lp_amount p) afp;
          b ← add128 (w_bal w) rest;
          xb_remove_pos x (w <| w_bal := b |>) i);
  b ← sub128 (w_bal w1) afb;
  '(x2, _) ← xb_deposit x1 amount days vid (w1 <| w_bal := b |>); Ok x2.
(** lib.rs:483-503 *)
Definition xb_relock_from_balance (c : ctx) (x : bx) (days amount : N) : res bx :=
  _ ← non_payable c;
  let vid := c_pred c in
  w ← xb_voter x vid;
  _ ← require (amount <=? w_bal w) "Not enough balance.";
  _ ← require (n_min_deposit_amount (xr x) <=? amount) "A locking position cannot have less than";
  b ← sub128 (w_bal w) amount;
  '(x2, _) ← xb_deposit x amount days vid (w <| w_bal := b |>); Ok x2.
(** lib.rs:511-517 *)
Definition xb_clear_positions (c : ctx) (x : bx) (l : list nat) : res bx :=
  _ ← non_payable c;
  _ ← require (match l with [] => false | _ => true end) "Index list is empty.";
  w ← xb_voter x (c_pred c);
  '(x1, w1) ← xb_clear (now_ms c) x w l;
  xb_save x1 (c_pred c) w1.
(** lib.rs:567-600 *)
Definition xb_add_vote (x : bx) (vid : string) (w : bvoter) (vp : N) (addr obj : string) : res (bx * bvoter) :=
  _ ← require (vp <=? w_avail w) "Not enough free voting power.";
  n ← b_len (w_vp w);
  _ ← require (n <=? n_max_voting_positions (xr x)) "Cannot exceed voting positions.";
  h ← xb_votes_for x w vid addr;
  o ← u_get dec_u128 (xst x) h (enc_str obj);
  av ← sub128 (w_avail w) vp;
  v ← add128 (default 0 o) vp;
  '(st1, h1) ← u_put dec_u128 (xst x) h (enc_str obj) (enc_uint 16 v);
  '(st2, h2) ← u_put dec_umh st1 (w_vp w) (enc_str addr) (enc_umh h1);
  x' ← xb_increase_total (mkX st2 (xr x)) vp addr obj;
  Ok (x', w <| w_avail := av |> <| w_vp := h2 |>).
(** lib.rs:537-565 *)
Definition xb_vote (x : bx) (vid : string) (vp : N) (addr obj : string) : res bx :=
  w ← xb_voter x vid;
  '(x1, w1) ← xb_add_vote x vid w vp addr obj; xb_save x1 vid w1.
(** lib.rs:678-715 *)
Definition xb_remove_vote (x : bx) (vid : string) (w : bvoter) (addr obj : string) : res (bx * bvoter) :=
  h ← xb_votes_for x w vid addr;
  o ← u_get dec_u128 (xst x) h (enc_str obj);
  v ← expect o "Cannot unvote a Votable Object without votes.";
  av ← add128 (w_avail w) v;
  '(st1, h1) ← u_del dec_u128 (xst x) h (enc_str obj);
  n ← b_len h1;
  '(st2, h2) ← (if n =? 0 then u_del dec_umh st1 (w_vp w) (enc_str addr) else u_put dec_umh st1 (w_vp w) (enc_str addr) (enc_umh h1));
  x' ← xb_decrease_total (mkX st2 (xr x)) v addr obj;
  Ok (x', w <| w_avail := av |> <| w_vp := h2 |>).
(** lib.rs:729-741 *)
Definition xb_locked_in (c : ctx) (x : bx) (addr obj : string) : bool :=
  match n_lock_votes_in_address (xr x) with
  | Some a => (now_ms c <? n_lock_votes_in_end_timestamp_ms (xr x)) && bool_decide (a = addr)
              && str_contains (" #" +:+ pretty (n_lock_votes_in_numeric_id (xr x)) +:+ " ") obj
  | None => false
  end.
(** lib.rs:722-752 *)
Definition xb_unvote (c : ctx) (x : bx) (vid addr obj : string) : res bx :=
  _ ← require (negb (xb_locked_in c x addr obj)) "you can not remove votes here until";
  w ← xb_voter x vid;
  '(x1, w1) ← xb_remove_vote x vid w addr obj; xb_save x1 vid w1.
(** lib.rs:602-676 *)
Definition xb_rebalance (c : ctx) (x : bx) (vp : N) (addr obj : string) : res bx :=
  _ ← non_payable c;
  let vid := c_pred c in
  w ← xb_voter x vid;
  h ← xb_votes_for x w vid addr;
  o ← u_get dec_u128 (xst x) h (enc_str obj);
  v ← expect o "Rebalance not allowed for nonexisting Votable Object.";
  _ ← require (negb (v =? vp)) "Cannot rebalance to same Voting Power.";
  if vp =? 0 then xb_unvote c x vid addr obj
  else
    '(x1, av, v') ←
      (if v <? vp then
         add ← sub128 vp v;
         _ ← require (add <=? w_avail w) "Not enough free voting power to unlock!";
         av ← sub128 (w_avail w) add;
         v' ← add128 v add;
         x1 ← xb_increase_total x add addr obj;
         Ok (x1, av, v')
       else
         rem ← sub128 v vp;
         av ← add128 (w_avail w) rem;
         v' ← sub128 v rem;
         x1 ← xb_decrease_total x rem addr obj;
         Ok (x1, av, v'));
    '(st1, h1) ← u_put dec_u128 (xst x1) h (enc_str obj) (enc_uint 16 v');
    '(st2, h2) ← u_put dec_umh st1 (w_vp w) (enc_str addr) (enc_umh h1);
    xb_save (mkX st2 (xr x1)) vid (w <| w_avail := av |> <| w_vp := h2 |>).

(** lib.rs:124-150, 777-793 *)
Definition xb_set (c : ctx) (x : bx) (f : newroot -> newroot) : res bx := _ ← assert_one_yocto c; _ ← xb_owner c x; Ok (with_root x f).
(** self.associated_user_data.insert *)
Definition xb_put_data (x : bx) (a d : string) : res bx :=
  '(st, h) ← u_put dec_str (xst x) (n_associated_user_data (xr x)) (enc_str a) (enc_str d); Ok (mkX st (xr x <| n_associated_user_data := h |>)).
(** lib.rs:166-174 *)
Definition xb_airdrop (c : ctx) (x : bx) (d : string) : res bx :=
  _ ← require (c_deposit c =? n_registration_cost (xr x)) "Pay yoctos for the registration cost"; xb_put_data x (c_pred c) d.
(** lib.rs:180-186 *)
Definition xb_multi_airdrop (c : ctx) (x : bx) (l : list (string * string)) : res bx :=
  _ ← non_payable c; _ ← xb_operator c x; foldM (fun x p => xb_put_data x p.1 p.2) l x.
(** lib.rs:757-767 *)
Definition xb_lock_in (c : ctx) (x : bx) (e i : N) (a : option string) : res bx :=
  _ ← non_payable c; _ ← xb_operator c x;
  Ok (with_root x (fun r => r <| n_lock_votes_in_end_timestamp_ms := e |> <| n_lock_votes_in_address := a |> <| n_lock_votes_in_numeric_id := i |>)).
(** lib.rs:799-830 *)
Definition xb_migration (c : ctx) (x : bx) (vid : string) (l : list (N * N)) (data : option string) : res bx :=
  _ ← non_payable c;
  _ ← require (bool_decide (c_pred c = n_prev_governance_contract (xr x))) "Only the old gov contract can call this function.";
  w ← xb_get x vid;
  '(x1, _) ← foldM (fun xw lp => xb_deposit xw.1 (lp.1 / E18) lp.2 vid xw.2) l (x, w);
  match data with
  | None => Ok x1
  | Some d =>
      o ← u_get dec_str (xst x1) (n_associated_user_data (xr x1)) (enc_str (c_pred c));
      match o with Some _ => Ok x1 | None => xb_put_data x1 (c_pred c) d end
  end.
(** lib.rs:861-875; [fuel] as in MetaVote.v *)
Fixpoint xb_mirror_loop (fuel : nat) (x : bx) (vid : string) (w : bvoter) (used new : N) : res (bx * bvoter * N) :=
  if new <? used then
    match fuel with
    | O => Panic "Exceeded the prepaid gas"
    | S fuel' =>
        ok ← u_key dec_str (xst x) (w_vp w) 0;
        addr ← expect ok "unwrap on None";
        oh ← u_get dec_umh (xst x) (w_vp w) (enc_str addr);
        h ← expect oh "unwrap on None";
        oo ← u_key dec_str (xst x) h 0;
        obj ← expect oo "unwrap on None";
        ov ← u_get dec_u128 (xst x) h (enc_str obj);
        v ← expect ov "unwrap on None";
        '(x1, w1) ← xb_remove_vote x vid w addr obj;
        used' ← sub128 used v;
        xb_mirror_loop fuel' x1 vid w1 used' new
    end
  else Ok (x, w, used).
Definition xb_entries (x : bx) (w : bvoter) : nat :=
  match m_vals dec_umh (xst x) (w_vp w) with
  | Ok hs => fold_right (fun h n => (N.to_nat (um_klen h) + n)%nat) O hs
  | Panic _ => O
  end.
(** lib.rs:834-899 *)
Definition xb_mirror (c : ctx) (x : bx) (ext : string) (l : list (N * N)) : res bx :=
  _ ← non_payable c; _ ← xb_operator c x;
  let vid := pseudo_near_address ext in
  w ← xb_get x vid;
  used ← xb_used x w;
  prev ← add128 (w_avail w) used;
  vps ← mapMr (fun lp => calculate_voting_power lp.2 lp.1) l;
  new ← sum128 vps;
  '(x1, w1, used1) ← xb_mirror_loop (S (xb_entries x w)) x vid w used new;
  let '(st, h) := p_clear (xst x1) (w_lps w1) in
  '(x2, w3) ← foldM (fun xw lp => xb_create xw.1 xw.2 lp.2 lp.1) l (mkX st (xr x1), w1 <| w_lps := h |> <| w_avail := 0 |>);
  av ← sub128 (w_avail w3) used1;
  t ← sub128 (n_total_voting_power (xr x2)) prev;
  xb_save (with_total x2 t) vid (w3 <| w_avail := av |>).

(** ** evm_delegate.rs *)
(** store::LookupMap<String, (String, String)> with prefix [p] *)
Definition k_get (st : flat) (p k : string) : res (option (string * string)) := de_o dec_pair (st !! (p +:+ enc_str k)).
Definition k_put (st : flat) (p k : string) (v : string * string) : flat := <[p +:+ enc_str k := enc_pair v]> st.
Definition k_del (st : flat) (p k : string) : flat := delete (p +:+ enc_str k) st.
(** evm_delegate.rs:13-23 *)
Definition xb_pre_delegate (c : ctx) (x : bx) (evm sig : string) : res bx :=
  _ ← assert_one_yocto c;
  _ ← require (negb (str_contains "." evm)) "evm_address can not contain dots";
  Ok (mkX (k_put (xst x) (n_evm_pre_delegation (xr x)) evm (c_pred c, sig)) (xr x)).
(** evm_delegate.rs:31-35 *)
Definition xb_remove_pre (c : ctx) (x : bx) (evm : string) : res bx :=
  _ ← assert_one_yocto c; _ ← xb_operator c x; Ok (mkX (k_del (xst x) (n_evm_pre_delegation (xr x)) evm) (xr x)).
(** evm_delegate.rs:38-75 *)
Definition xb_put_delegates (x : bx) (a : string) (l : list string) : res bx :=
  '(st, h) ← u_put dec_strs (xst x) (n_evm_delegates (xr x)) (enc_str a) (enc_strs l); Ok (mkX st (xr x <| n_evm_delegates := h |>)).
Definition xb_del_delegates (x : bx) (a : string) : res bx :=
  '(st, h) ← u_del dec_strs (xst x) (n_evm_delegates (xr x)) (enc_str a); Ok (mkX st (xr x <| n_evm_delegates := h |>)).
Definition xb_delegates (x : bx) (a : string) : res (option (list string)) := u_get dec_strs (xst x) (n_evm_delegates (xr x)) (enc_str a).
Definition xb_confirm_to (x : bx) (evm acct sig : string) : res bx :=
  o ← xb_delegates x acct;
  x1 ← xb_put_delegates x acct (default [] o ++ [evm]);
  Ok (mkX (k_put (xst x1) (n_evm_delegation_signatures (xr x1)) evm (acct, sig)) (xr x1)).
Definition xb_confirm (c : ctx) (x : bx) (evm : string) : res bx :=
  _ ← assert_one_yocto c; _ ← xb_operator c x;
  o ← k_get (xst x) (n_evm_pre_delegation (xr x)) evm;
  match o with
  | None => Ok x
  | Some (acct, sig) =>
      let x1 := mkX (k_del (xst x) (n_evm_pre_delegation (xr x)) evm) (xr x) in
      e ← k_get (xst x1) (n_evm_delegation_signatures (xr x1)) evm;
      match e with
      | Some (old, _) =>
          if bool_decide (old = acct) then Ok x1
          else
            ol ← xb_delegates x1 old;
            l ← expect ol "unwrap on None";
            let l' := retain_ne evm l in
            x2 ← (match l' with [] => xb_del_delegates x1 old | _ => xb_put_delegates x1 old l' end);
            xb_confirm_to x2 evm acct sig
      | None => xb_confirm_to x1 evm acct sig
      end
  end.
(** evm_delegate.rs:96-111 *)
Definition xb_verify (c : ctx) (x : bx) (evm : string) : res string :=
  o ← xb_delegates x (c_pred c);
  _ ← require (bool_decide (evm ∈ default [] o)) "is not delegated to"; Ok (pseudo_near_address evm).
(** evm_delegate.rs:78-93 *)
Definition xb_delegated_claim (c : ctx) (x : bx) (evm : string) (amount : N) : res (bx * list eff) :=
  pseudo ← xb_verify c x evm;
  x1 ← xb_sub_st x pseudo amount;
  Ok (x1, [PaySt (n_stnear_token_contract_address (xr x1)) pseudo (c_pred c) amount]).
(** evm_delegate.rs:142-163 *)
Definition xb_remove_delegated (c : ctx) (x : bx) (evm : string) : res bx :=
  _ ← assert_one_yocto c;
  o ← k_get (xst x) (n_evm_delegation_signatures (xr x)) evm;
  match o with
  | Some (acct, _) =>
      if bool_decide (acct = c_pred c) then
        let x1 := mkX (k_del (xst x) (n_evm_delegation_signatures (xr x)) evm) (xr x) in
        ol ← xb_delegates x1 (c_pred c);
        l ← expect ol "unwrap on None";
        xb_put_delegates x1 (c_pred c) (retain_ne evm l)
      else Panic "note delegated to you"
  | None => Panic "note delegated"
  end.

(** ** withdraw.rs *)
(** withdraw.rs:11-41 *)
Definition xb_withdraw (c : ctx) (x : bx) (vid : string) (l : list nat) (amt : option N) : res (bx * list eff) :=
  _ ← assert_one_yocto c;
  w ← xb_voter x vid;
  '(x1, w1) ← (match l with [] => Ok (x, w) | _ => xb_clear (now_ms c) x w l end);
  let total := default (w_bal w1) amt in
  _ ← require (0 <? total) "Nothing to withdraw.";
  _ ← require (total <=? w_bal w1) "Not enough balance.";
  b ← sub128 (w_bal w1) total;
  let w2 := w1 <| w_bal := b |> in
  x2 ← (if (w_bal w2 =? 0) && (vh_len (w_lps w2) =? 0) then xb_drop x1 vid else xb_save x1 vid w2);
  Ok (x2, [PayMp vid total]).
(** withdraw.rs:55-60 *)
Definition xb_withdraw_all (c : ctx) (x : bx) : res (bx * list eff) :=
  w ← xb_voter x (c_pred c);
  l ← xb_unlocked_indexes (now_ms c) x w;
  xb_withdraw c x (c_pred c) l None.
(** withdraw.rs:79-105, 126-142 *)
Definition xb_after_mp (self : string) (c : ctx) (x : bx) (vid : string) (amount : N) (ok : bool) : res bx :=
  _ ← assert_private c self; _ ← non_payable c;
  if ok then Ok x else w ← xb_get x vid; b ← add128 (w_bal w) amount; xb_save x vid (w <| w_bal := b |>).
Definition xb_after_st (self : string) (c : ctx) (x : bx) (source : string) (amount : N) (ok : bool) : res bx :=
  _ ← assert_private c self; _ ← non_payable c; if ok then Ok x else xb_add_st x source amount.

(** ** deposit.rs *)
(** deposit.rs:70-107 *)
Definition xb_distribute (c : ctx) (x : bx) (total : N) (l : list (string * N)) : res bx :=
  '(x2, distributed) ←
    (if bool_decide (c_pred c = n_mpdao_token_contract_address (xr x)) then
       '(x1, d) ← foldM (fun xd item => a ← mul128 item.2 1000000; x' ← xb_add_mp xd.1 item.1 a; d' ← add128 xd.2 a; Ok (x', d')) l (x, 0);
       acc ← add128 (n_accumulated_mpdao_distributed_for_claims (xr x1)) d;
       Ok (with_root x1 (fun r => r <| n_accumulated_mpdao_distributed_for_claims := acc |>), d)
     else if bool_decide (c_pred c = n_stnear_token_contract_address (xr x)) then
       '(x1, d) ← foldM (fun xd item => a ← mul128 item.2 E20; x' ← xb_add_st xd.1 item.1 a; d' ← add128 xd.2 a; Ok (x', d')) l (x, 0);
       acc ← add128 (n_accum_distributed_stnear_for_claims (xr x1)) d;
       Ok (with_root x1 (fun r => r <| n_accum_distributed_stnear_for_claims := acc |>), d)
     else Panic "Unknown token address");
  _ ← require (distributed =? total) "total to distribute != total_amount sent"; Ok x2.
(** deposit.rs:13-64 *)
Definition xb_on_transfer (c : ctx) (x : bx) (sender : string) (amount : N) (msg : string) : res bx :=
  _ ← non_payable c;
  fc ← msg_is_for_claims msg;
  if (fc : bool) then
    l ← expect (c_json_claims c (String.substring 11 (String.length msg - 11) msg)) "Err parsing msg for-claims";
    _ ← require (forallb (fun p => p.2 <? U64_SIZE) l) "Err parsing msg for-claims";
    xb_distribute c x amount l
  else
    _ ← require (bool_decide (c_pred c = n_mpdao_token_contract_address (xr x))) "You can only bond mpDAO-token";
    ip ← msg_is_pair msg;
    '(vid, days) ←
      (if (ip : bool) then
         pr ← expect (c_json_pair c msg) "Err parsing msg, expected [voter_id,days]";
         _ ← require (pr.2 <? U16_SIZE) "Err parsing msg, expected [voter_id,days]";
         _ ← require (bool_decide (sender = n_owner_id (xr x))) "only allowed for owner";
         Ok pr
       else d ← expect (parse_u16 msg) "Err parsing bonding_days from msg. Must be u16"; Ok (sender, d));
    _ ← xb_min_deposit x amount;
    w ← xb_get x vid;
    '(x', _) ← xb_deposit x amount days vid w; Ok x'.

(** ** One receipt *)
Definition quiet (r : res bx) : res (bx * list eff) := x ← r; Ok (x, []).
Definition xb_exec (self : string) (c : ctx) (x : bx) (o : op) : res (bx * list eff) :=
  match o with
  | SetStnear a => quiet (xb_set c x (fun r => r <| n_stnear_token_contract_address := a |>))
  | SetOperator a => quiet (xb_set c x (fun r => r <| n_operator_id := a |>))
  | SetOwner a => quiet (xb_set c x (fun r => r <| n_owner_id := a |>))
  | UpdateRegCost n => quiet (_ ← non_payable c; _ ← xb_owner c x; Ok (with_root x (fun r => r <| n_registration_cost := n |>)))
  | UpdateAirdrop d => quiet (xb_airdrop c x d)
  | OpMultiSetAirdrop l => quiet (xb_multi_airdrop c x l)
  | ClaimAndLock a d => quiet (xb_claim_and_lock c x a d)
  | ClaimStnear a => xb_claim_stnear c x a
  | Unlock i => quiet (_ ← non_payable c; xb_unlock c x i)
  | UnlockPartial i a => quiet (_ ← non_payable c; xb_unlock_partial c x i a)
  | ExtendDays i d => quiet (xb_extend c x i d)
  | Relock i d a => quiet (xb_relock c x i d a)
  | RelockPartial i p d a => quiet (xb_relock_partial c x i p d a)
  | RelockFromBalance d a => quiet (xb_relock_from_balance c x d a)
  | ClearPositions l => quiet (xb_clear_positions c x l)
  | Vote p a b => quiet (_ ← non_payable c; xb_vote x (c_pred c) p a b)
  | Rebalance p a b => quiet (xb_rebalance c x p a b)
  | Unvote a b => quiet (_ ← non_payable c; xb_unvote c x (c_pred c) a b)
  | SetLockIn e i a => quiet (xb_lock_in c x e i a)
  | UpdateMinUnbond d => quiet (xb_set c x (fun r => r <| n_min_unbond_period := d |>))
  | UpdateMaxUnbond d => quiet (xb_set c x (fun r => r <| n_max_unbond_period := d |>))
  | SetPrevGov a => quiet (xb_set c x (fun r => r <| n_prev_governance_contract := a |>))
  | MigrationCreateLps v l d => quiet (xb_migration c x v l d)
  | MirrorLps e l => quiet (xb_mirror c x e l)
  | PreDelegate e g => quiet (xb_pre_delegate c x e g)
  | OpRemovePre e => quiet (xb_remove_pre c x e)
  | OpConfirm e => quiet (xb_confirm c x e)
  | DelegatedClaim e a => xb_delegated_claim c x e a
  (* evm_delegate.rs:113-139 *)
  | VoteDelegated e p a b => quiet (_ ← non_payable c; v ← xb_verify c x e; xb_vote x v p a b)
  | UnvoteDelegated e a b => quiet (_ ← non_payable c; v ← xb_verify c x e; xb_unvote c x v a b)
  | RemoveDelegated e => quiet (xb_remove_delegated c x e)
  (* withdraw.rs:44-52 *)
  | Withdraw l a => xb_withdraw c x (c_pred c) l (if a =? 0 then None else Some a)
  | WithdrawAll => xb_withdraw_all c x
  | AfterMp v a k => quiet (xb_after_mp self c x v a k)
  | AfterSt v a k => quiet (xb_after_st self c x v a k)
  | FtOnTransfer s a m => quiet (xb_on_transfer c x s a m)
  end.

(** #[near_bindgen]: env::state_read with PanicOnDefault, the method, env::state_write *)
Definition xb_load (st : flat) : res newroot :=
  b ← expect (st !! "STATE") "The contract is not initialized"; expect (try_from_slice dec_new b) "Cannot deserialize the contract state.".
Definition xb_call (self : string) (st : flat) (c : ctx) (o : op) : res (flat * list eff) :=
  r ← xb_load st; '(x, out) ← xb_exec self c (mkX st r) o; Ok (<["STATE" := enc_new (xr x)]> (xst x), out).
(** lib.rs:71-118 *)
Definition xb_new (st : flat) (a : init_args) : res flat :=
  _ ← require (negb (bool_decide (is_Some (st !! "STATE")))) "The contract is already initialized";
  _ ← require ((i_min_unbond a <? U16_SIZE) && (i_max_unbond a <? U16_SIZE) && (i_min_deposit a <? U128_SIZE) && (i_max_lps a <? U8_SIZE)
               && (i_max_vps a <? U8_SIZE) && (i_reg_cost a <? U128_SIZE)) "deserialize";
  _ ← require (i_min_unbond a <? i_max_unbond a) "Review the min and max locking period";
  Ok (<["STATE" := enc_new (mkNewRoot (i_owner a) (i_operator a) (umh_new (sk0 2)) (umh_new (sk0 3)) (i_min_unbond a) (i_max_unbond a)
         (i_min_deposit a) (i_max_lps a) (i_max_vps a) (i_mpdao a) 0 (umh_new (sk0 6)) 0 0 (i_stnear a) (umh_new (sk0 7)) 0 0
         (i_reg_cost a) (umh_new (sk0 8)) (i_prev_gov a) (umh_new (sk0 9)) (sk0 11) (sk0 10) 0 None 0)]> st).
Definition xb_step (self : string) (st : flat) (y : call) : flat := match xb_call self st y.1 y.2 with Ok (st', _) => st' | Panic _ => st end.
Definition xb_run (self : string) (st : flat) (tr : list call) : flat := fold_left (xb_step self) tr st.
End Keccak.
