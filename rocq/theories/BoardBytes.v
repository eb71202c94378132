(** BoardBytes.v -- the proposal contract from the text of a call to the bytes in storage: mpip-contract/src with the code that
    #[near_bindgen] generates around its methods, Borsh, and near_sdk collections::UnorderedMap on the account's storage, with
    the maps inside the records of other maps.

    near-sdk 4.1 and Borsh are not in /repo; they are written from the published libraries.  Paths are relative to
    /repo/mpip-contract/src.  [H] is keccak256.
    Simplified: Borsh's check that a decoded string is UTF-8 is left out.  Not modelled: gas and the log line of internal.rs:99. *)

From Verif Require Export KVBytes.

(** ** Borsh *)
Definition enc_bool (b : bool) : string := enc_uint 1 (if b then 1 else 0).
Definition dec_bool (b : string) : option (bool * string) :=
  '(t, b) ← dec_uint 1 b; if t =? 0 then Some (false, b) else if t =? 1 then Some (true, b) else None.
(** Option<u64>, Option<u128>: a tag byte *)
Definition enc_onum (n : nat) (o : option N) : string := match o with None => enc_uint 1 0 | Some x => enc_uint 1 1 +:+ enc_uint n x end.
Definition dec_onum (n : nat) (b : string) : option (option N * string) :=
  '(t, b) ← dec_uint 1 b; if t =? 0 then Some (None, b) else if t =? 1 then '(x, b) ← dec_uint n b; Some (Some x, b) else None.
(** Vec<u32> *)
Definition enc_nums (l : list N) : string := enc_uint 4 (N.of_nat (length l)) +:+ fold_right (fun x b => enc_uint 4 x +:+ b) "" l.
Fixpoint dec_nums_n (n : nat) (b : string) : option (list N * string) :=
  match n with O => Some ([], b) | S n => '(x, b) ← dec_uint 4 b; '(l, b) ← dec_nums_n n b; Some (x :: l, b) end.
Definition dec_nums (b : string) : option (list N * string) := '(n, b) ← dec_uint 4 b; dec_nums_n (N.to_nat n) b.
(** vote.rs:7-13: the number of the variant *)
Definition enc_vtype (t : vote_type) : string := enc_uint 1 match t with VAgainst => 0 | VFor => 1 | VAbstain => 2 end.
Definition dec_vtype (b : string) : option (vote_type * string) :=
  '(t, b) ← dec_uint 1 b; if t =? 0 then Some (VAgainst, b) else if t =? 1 then Some (VFor, b) else if t =? 2 then Some (VAbstain, b) else None.
(** vote.rs:26-34 *)
Definition enc_vote (u : mvote) : string := enc_uint 4 (vt_mpip u) +:+ enc_vtype (vt_type u) +:+ enc_uint 16 (vt_power u) +:+ enc_str (vt_memo u).
Definition dec_vote (b : string) : option (mvote * string) :=
  '(i, b) ← dec_uint 4 b; '(t, b) ← dec_vtype b; '(n, b) ← dec_uint 16 b; '(m, b) ← dec_str b; Some (mkMvote i t n m, b).
(** mpip.rs:42-58 *)
Definition enc_mpip (p : mpip) : string :=
  let ct := pr_content p in
  enc_uint 4 (pr_id p) +:+ enc_str (ct_title ct) +:+ enc_str (ct_short ct) +:+ enc_str (ct_body ct) +:+ enc_str (ct_data ct) +:+ enc_str (ct_extra ct) +:+
  enc_str (pr_creator p) +:+ enc_onum 8 (pr_start p) +:+ enc_onum 8 (pr_end p) +:+ enc_bool (pr_draft p) +:+ enc_bool (pr_executed p) +:+
  enc_bool (pr_canceled p) +:+ enc_onum 16 (pr_quorum p).
Definition dec_mpip (b : string) : option (mpip * string) :=
  '(i, b) ← dec_uint 4 b; '(t, b) ← dec_str b; '(s, b) ← dec_str b; '(y, b) ← dec_str b; '(d, b) ← dec_str b; '(e, b) ← dec_str b;
  '(c, b) ← dec_id b; '(f, b) ← dec_onum 8 b; '(g, b) ← dec_onum 8 b; '(x1, b) ← dec_bool b; '(x2, b) ← dec_bool b;
  '(x3, b) ← dec_bool b; '(q, b) ← dec_onum 16 b;
  Some (mkMpip i (mkContent t s y d e) c f g x1 x2 x3 q, b).
(** vote_counting.rs:18-24 *)
Record bpv := mkBpv { v_for : N; v_against : N; v_abstain : N; v_voted : umh }.
Definition enc_bpv (v : bpv) : string := enc_uint 16 (v_for v) +:+ enc_uint 16 (v_against v) +:+ enc_uint 16 (v_abstain v) +:+ enc_umh (v_voted v).
Definition dec_bpv (b : string) : option (bpv * string) :=
  '(x, b) ← dec_uint 16 b; '(y, b) ← dec_uint 16 b; '(z, b) ← dec_uint 16 b; '(h, b) ← dec_umh b; Some (mkBpv x y z h, b).
(** voter.rs:6-9: Voter { votes } is its map: [enc_umh] *)

(** lib.rs:27-61, in the order of the fields *)
Record broot := mkBroot {
  bo_admin : string; bo_operator : string; bo_token : string; bo_vote : string;
  bo_props : umh; bo_ballots : umh; bo_voters : umh; bo_proposers : umh;
  bo_period : N; bo_min_meta : N; bo_min_st : N; bo_min_vp : N; bo_cost : N; bo_storage : N; bo_open : bool; bo_floor : N }.
Definition enc_broot (r : broot) : string :=
  enc_str (bo_admin r) +:+ enc_str (bo_operator r) +:+ enc_str (bo_token r) +:+ enc_str (bo_vote r) +:+
  enc_umh (bo_props r) +:+ enc_umh (bo_ballots r) +:+ enc_umh (bo_voters r) +:+ enc_umh (bo_proposers r) +:+
  enc_uint 8 (bo_period r) +:+ enc_uint 16 (bo_min_meta r) +:+ enc_uint 16 (bo_min_st r) +:+ enc_uint 16 (bo_min_vp r) +:+
  enc_uint 16 (bo_cost r) +:+ enc_uint 16 (bo_storage r) +:+ enc_bool (bo_open r) +:+ enc_uint 2 (bo_floor r).
Definition dec_broot (b : string) : option (broot * string) :=
  '(f1, b) ← dec_id b; '(f2, b) ← dec_id b; '(f3, b) ← dec_id b; '(f4, b) ← dec_id b;
  '(f5, b) ← dec_umh b; '(f6, b) ← dec_umh b; '(f7, b) ← dec_umh b; '(f8, b) ← dec_umh b;
  '(f9, b) ← dec_uint 8 b; '(f10, b) ← dec_uint 16 b; '(f11, b) ← dec_uint 16 b; '(f12, b) ← dec_uint 16 b;
  '(f13, b) ← dec_uint 16 b; '(f14, b) ← dec_uint 16 b; '(f15, b) ← dec_bool b; '(f16, b) ← dec_uint 2 b;
  Some (mkBroot f1 f2 f3 f4 f5 f6 f7 f8 f9 f10 f11 f12 f13 f14 f15 f16, b).
(** env::state_read().unwrap_or_default() with PanicOnDefault; env::state_write *)
Definition bb_load (st : flat) : res broot :=
  b ← expect (st !! "STATE") "The contract is not initialized";
  expect (try_from_slice dec_broot b) "Cannot deserialize the contract state.".
Definition bb_save (st : flat) (r : broot) : flat := <["STATE" := enc_broot r]> st.

(** ** near_sdk collections::UnorderedMap<K, V>: [d] reads a V *)
Definition de {A} (d : string -> option (A * string)) (b : string) : res A := expect (try_from_slice d b) "Cannot deserialize value with Borsh".
Definition de_o {A} (d : string -> option (A * string)) (o : option string) : res (option A) :=
  match o with None => Ok None | Some b => x ← de d b; Ok (Some x) end.
Definition u_get {A} (d : string -> option (A * string)) (st : flat) (h : umh) (k : string) : res (option A) := o ← b_get st h k; de_o d o.
Definition u_put {A} (d : string -> option (A * string)) (st : flat) (h : umh) (k v : string) : res (flat * umh) :=
  '(st', h', old) ← b_insert st h k v; _ ← de_o d old; Ok (st', h').
Definition u_del {A} (d : string -> option (A * string)) (st : flat) (h : umh) (k : string) : res (flat * umh) :=
  '(st', h', old) ← b_remove st h k; _ ← de_o d old; Ok (st', h').
(** keys_as_vector().get(i), values_as_vector().get(i) *)
Definition u_key {A} (d : string -> option (A * string)) (st : flat) (h : umh) (i : nat) : res (option A) :=
  o ← fvec_get st (um_kpre h) (N.to_nat (um_klen h)) i; de_o d o.
Definition u_val {A} (d : string -> option (A * string)) (st : flat) (h : umh) (i : nat) : res (option A) :=
  o ← fvec_get st (um_vpre h) (N.to_nat (um_vlen h)) i; de_o d o.
(** UnorderedMap::iter: the two vectors side by side *)
Definition u_iter {A B} (dk : string -> option (A * string)) (dv : string -> option (B * string)) (st : flat) (h : umh) : res (list (A * B)) :=
  mapMr (fun i => ok ← u_key dk st h i; k ← expect ok "inconsistent state"; ov ← u_val dv st h i; v ← expect ov "inconsistent state"; Ok (k, v))
    (seq 0 (N.to_nat (um_klen h))).

Section Keccak.
Variable H : string -> string.

(** lib.rs:66-101; StorageKey, constants.rs:12-20 *)
Definition bb_new (st : flat) (a : minit) : res flat :=
  _ ← require (negb (bool_decide (is_Some (st !! "STATE")))) "The contract is already initialized";
  _ ← require (mi_floor a <=? ONE_HUNDRED) "Incorrect quorum basis points.";
  Ok (bb_save st (mkBroot (mi_admin a) (mi_operator a) (mi_token a) (mi_vote a) (umh_new (sk0 0)) (umh_new (sk0 2)) (umh_new (sk0 3)) (umh_new (sk0 4))
                    (mi_period a) 0 0 (mi_min_vp a) 0 (mi_storage a) true (mi_floor a))).

(** ** internal.rs *)
(** internal.rs:7-12 *)
Definition bb_admin (c : ctx) (r : broot) : res unit := require (bool_decide (bo_admin r = c_signer c)) "Only the admin can call this function.".
(** internal.rs:14-20 *)
Definition bb_operator (c : ctx) (r : broot) : res unit :=
  require (bool_decide (bo_admin r = c_signer c) || bool_decide (bo_operator r = c_signer c)) "Only the operator or admin can call this function.".
(** internal.rs:134-138 *)
Definition bb_mpip (st : flat) (r : broot) (id : N) : res mpip :=
  o ← u_get dec_mpip st (bo_props r) (enc_uint 4 id); expect o "MPIP Id does not exist".
(** internal.rs:22-29 *)
Definition bb_operator_or_creator (c : ctx) (st : flat) (r : broot) (id : N) : res unit :=
  p ← bb_mpip st r id;
  require (bool_decide (bo_operator r = c_signer c) || bool_decide (pr_creator p = c_signer c)) "Only the admin or proposal creator can call this function.".
(** internal.rs:31-37 *)
Definition bb_creator (c : ctx) (st : flat) (r : broot) (id : N) : res unit :=
  p ← bb_mpip st r id; require (bool_decide (pr_creator p = c_signer c)) "Only the proposal creator can call this function.".
(** internal.rs:46-52 *)
Definition bb_has_voted (st : flat) (r : broot) (id : N) (voter : string) : res bool :=
  o ← u_get dec_umh st (bo_voters r) (enc_str voter);
  match o with
  | Some h => u ← u_get dec_vote st h (enc_uint 4 id); Ok (match u with Some _ => true | None => false end)
  | None => Ok false
  end.
(** internal.rs:120-132; the tests of a proposal are those of Mpip.v *)
Definition bb_active_or_draft (c : ctx) (st : flat) (r : broot) (id : N) : res unit :=
  p ← bb_mpip st r id; require (is_active_or_draft (now_ms c) p) "Proposal is not active or in draft state".
Definition bb_on_voting (c : ctx) (st : flat) (r : broot) (id : N) : res unit :=
  p ← bb_mpip st r id; b ← is_on_voting (now_ms c) p; require b "Proposal is not on voting period".
(** internal.rs:140-144, vote_counting.rs:27-35; utils.rs:9-11 *)
Definition bb_pvote (st : flat) (r : broot) (id : N) : res bpv :=
  o ← u_get dec_bpv st (bo_ballots r) (enc_uint 4 id); Ok (default (mkBpv 0 0 0 (umh_new (sk1 H 1 (pretty id)))) o).
(** internal.rs:214-216, voter.rs:18-24 *)
Definition bb_voter (st : flat) (r : broot) (voter : string) : res umh :=
  o ← u_get dec_umh st (bo_voters r) (enc_str voter); Ok (default (umh_new (sk1 H 5 voter)) o).
(** internal.rs:218-222 *)
Definition bb_proposer (st : flat) (r : broot) (a : string) : res (list N) :=
  o ← u_get dec_nums st (bo_proposers r) (enc_str a); Ok (default [] o).
(** internal.rs:199-201 *)
Definition bb_quorum (r : broot) (total : N) : res N := x ← mul128 total (bo_floor r); Ok (x / 100 / 100).
(** internal.rs:203-212 *)
Definition bb_reached (st : flat) (r : broot) (id : N) : res bool :=
  v ← bb_pvote st r id; p ← bb_mpip st r id;
  q ← expect (pr_quorum p) "Proposal quorum has not been set";
  t ← add128 (v_for v) (v_abstain v);
  Ok (q <=? t).

(** ** The records that are written *)
Definition with_props (r : broot) (h : umh) : broot :=
  mkBroot (bo_admin r) (bo_operator r) (bo_token r) (bo_vote r) h (bo_ballots r) (bo_voters r) (bo_proposers r)
    (bo_period r) (bo_min_meta r) (bo_min_st r) (bo_min_vp r) (bo_cost r) (bo_storage r) (bo_open r) (bo_floor r).
Definition with_proposers (r : broot) (h : umh) : broot :=
  mkBroot (bo_admin r) (bo_operator r) (bo_token r) (bo_vote r) (bo_props r) (bo_ballots r) (bo_voters r) h
    (bo_period r) (bo_min_meta r) (bo_min_st r) (bo_min_vp r) (bo_cost r) (bo_storage r) (bo_open r) (bo_floor r).
Definition with_ballots (r : broot) (votes voters : umh) : broot :=
  mkBroot (bo_admin r) (bo_operator r) (bo_token r) (bo_vote r) (bo_props r) votes voters (bo_proposers r)
    (bo_period r) (bo_min_meta r) (bo_min_st r) (bo_min_vp r) (bo_cost r) (bo_storage r) (bo_open r) (bo_floor r).
Definition with_roles (r : broot) (admin operator vote : string) (open : bool) : broot :=
  mkBroot admin operator (bo_token r) vote (bo_props r) (bo_ballots r) (bo_voters r) (bo_proposers r)
    (bo_period r) (bo_min_meta r) (bo_min_st r) (bo_min_vp r) (bo_cost r) (bo_storage r) open (bo_floor r).
Definition with_numbers (r : broot) (period min_meta min_vp storage floor : N) : broot :=
  mkBroot (bo_admin r) (bo_operator r) (bo_token r) (bo_vote r) (bo_props r) (bo_ballots r) (bo_voters r) (bo_proposers r)
    period min_meta (bo_min_st r) min_vp (bo_cost r) storage (bo_open r) floor.
(** self.proposals.insert *)
Definition bb_put_mpip (st : flat) (r : broot) (id : N) (p : mpip) : res (flat * broot) :=
  '(st', h) ← u_put dec_mpip st (bo_props r) (enc_uint 4 id) (enc_mpip p); Ok (st', with_props r h).
(** lib.rs:423-433 *)
Definition bb_add (v : bpv) (vt : vote_type) (n : N) : res bpv :=
  match vt with
  | VFor => x ← add128 (v_for v) n; Ok (mkBpv x (v_against v) (v_abstain v) (v_voted v))
  | VAgainst => x ← add128 (v_against v) n; Ok (mkBpv (v_for v) x (v_abstain v) (v_voted v))
  | VAbstain => x ← add128 (v_abstain v) n; Ok (mkBpv (v_for v) (v_against v) x (v_voted v))
  end.
(** lib.rs:447-457 *)
Definition bb_sub (v : bpv) (vt : vote_type) (n : N) : res bpv :=
  match vt with
  | VFor => x ← sub128 (v_for v) n; Ok (mkBpv x (v_against v) (v_abstain v) (v_voted v))
  | VAgainst => x ← sub128 (v_against v) n; Ok (mkBpv (v_for v) x (v_abstain v) (v_voted v))
  | VAbstain => x ← sub128 (v_abstain v) n; Ok (mkBpv (v_for v) (v_against v) x (v_voted v))
  end.

(** ** The methods: storage, root, and what is sent *)
(** lib.rs:107-171, 273-276 *)
Definition bb_set (c : ctx) (st : flat) (r : broot) (who : ctx -> broot -> res unit) (r' : broot) : res (flat * broot * mout) :=
  _ ← non_payable c; _ ← who c r; Ok (st, r', ONone).
(** lib.rs:177-189 *)
Definition bb_start (c : ctx) (st : flat) (r : broot) (id : N) : res (flat * broot * mout) :=
  _ ← non_payable c; _ ← bb_operator_or_creator c st r id; _ ← bb_active_or_draft c st r id;
  Ok (st, r, OAsk (mkPending (c_signer c) (bo_vote r) AskTotal (KStart id))).
(** lib.rs:192-201 *)
Definition bb_start_callback (c : ctx) (st : flat) (r : broot) (id : N) (a : answer) : res (flat * broot) :=
  total ← total_from_promise a;
  p ← bb_mpip st r id;
  e ← add64 (now_ms c) (bo_period r);
  q ← bb_quorum r total;
  bb_put_mpip st r id (mkMpip (pr_id p) (pr_content p) (pr_creator p) (Some (now_ms c)) (Some e) false (pr_executed p) (pr_canceled p) (Some q)).
(** lib.rs:204-227 *)
Definition bb_create (c : ctx) (st : flat) (r : broot) (ct : content) : res (flat * broot * mout) :=
  _ ← require (bo_open r) "Contract not open for new proposals";
  _ ← require (bo_storage r <=? c_deposit c) "The required NEAR to create a proposal";
  Ok (st, r, OAsk (mkPending (c_signer c) (bo_vote r) (AskPositions (c_pred c)) (KCreate ct))).
(** lib.rs:230-243, mpip.rs:111-129: with the id returned *)
Definition bb_create_callback (c : ctx) (st : flat) (r : broot) (ct : content) (a : answer) : res (flat * broot * N) :=
  vp ← user_power_from_promise a;
  _ ← require (bo_min_vp r <=? vp) "Proposal threshold does not reached";
  n ← b_len (bo_props r);
  let id := n mod U32_SIZE in
  '(st1, r1) ← bb_put_mpip st r id (mkMpip id ct (c_signer c) None None true false false None);
  l ← bb_proposer st1 r1 (c_signer c);
  '(st2, h) ← u_put dec_nums st1 (bo_proposers r1) (enc_str (c_signer c)) (enc_nums (l ++ [id]));
  Ok (st2, with_proposers r1 h, id).
(** lib.rs:245-251 *)
Definition bb_cancel (c : ctx) (st : flat) (r : broot) (id : N) : res (flat * broot * mout) :=
  _ ← non_payable c; _ ← bb_operator_or_creator c st r id; _ ← bb_active_or_draft c st r id;
  p ← bb_mpip st r id;
  '(st', r') ← bb_put_mpip st r id (mkMpip (pr_id p) (pr_content p) (pr_creator p) (pr_start p) (pr_end p) (pr_draft p) (pr_executed p) true (pr_quorum p));
  Ok (st', r', ONone).
(** lib.rs:253-271 *)
Definition bb_update (c : ctx) (st : flat) (r : broot) (id : N) (ct : content) : res (flat * broot * mout) :=
  _ ← non_payable c; _ ← bb_creator c st r id; _ ← bb_active_or_draft c st r id;
  p ← bb_mpip st r id;
  '(st', r') ← bb_put_mpip st r id (mkMpip (pr_id p) ct (pr_creator p) (pr_start p) (pr_end p) (pr_draft p) (pr_executed p) (pr_canceled p) (pr_quorum p));
  Ok (st', r', ONone).
(** lib.rs:372-394 *)
Definition bb_vote (c : ctx) (st : flat) (r : broot) (id : N) (vt : vote_type) (memo : string) : res (flat * broot * mout) :=
  _ ← non_payable c; _ ← bb_on_voting c st r id;
  b ← bb_has_voted st r id (c_pred c);
  _ ← require (negb b) "Account has already voted";
  Ok (st, r, OAsk (mkPending (c_signer c) (bo_vote r) (AskPositions (c_pred c)) (KVote id (c_pred c) vt memo))).
(** lib.rs:397-437 *)
Definition bb_vote_callback (st : flat) (r : broot) (id : N) (voter : string) (vt : vote_type) (memo : string) (a : answer) : res (flat * broot) :=
  vp ← user_power_from_promise a;
  mine ← bb_voter st r voter;
  _ ← require (0 <? vp) "Not enough voting power to vote!";
  v ← bb_pvote st r id;
  let u := enc_vote (mkMvote id vt vp memo) in
  '(st1, h1) ← u_put dec_vote st (v_voted v) (enc_str voter) u;
  v1 ← bb_add (mkBpv (v_for v) (v_against v) (v_abstain v) h1) vt vp;
  '(st2, h2) ← u_put dec_bpv st1 (bo_ballots r) (enc_uint 4 id) (enc_bpv v1);
  '(st3, h3) ← u_put dec_vote st2 mine (enc_uint 4 id) u;
  '(st4, h4) ← u_put dec_umh st3 (bo_voters r) (enc_str voter) (enc_umh h3);
  Ok (st4, with_ballots r h2 h4).
(** lib.rs:439-467 *)
Definition bb_remove_vote (c : ctx) (st : flat) (r : broot) (id : N) : res (flat * broot * mout) :=
  _ ← non_payable c; _ ← bb_on_voting c st r id;
  b ← bb_has_voted st r id (c_pred c);
  _ ← require b "Account has not voted";
  v ← bb_pvote st r id;
  ou ← u_get dec_vote st (v_voted v) (enc_str (c_pred c));
  u ← expect ou "unwrap on None";
  mine ← bb_voter st r (c_pred c);
  v1 ← bb_sub v (vt_type u) (vt_power u);
  '(st1, h1) ← u_del dec_vote st (v_voted v1) (enc_str (c_pred c));
  '(st2, h2) ← u_put dec_bpv st1 (bo_ballots r) (enc_uint 4 id) (enc_bpv (mkBpv (v_for v1) (v_against v1) (v_abstain v1) h1));
  '(st3, h3) ← u_del dec_vote st2 mine (enc_uint 4 id);
  n ← b_len h3;
  '(st4, h4) ← (if n =? 0 then u_del dec_umh st3 (bo_voters r) (enc_str (c_pred c))
                else u_put dec_umh st3 (bo_voters r) (enc_str (c_pred c)) (enc_umh h3));
  Ok (st4, with_ballots r h2 h4, ONone).
(** lib.rs:493-506 *)
Definition bb_process (c : ctx) (st : flat) (r : broot) (id : N) : res (flat * broot * mout) :=
  _ ← non_payable c; _ ← bb_operator c r;
  p ← bb_mpip st r id;
  b ← is_on_voting (now_ms c) p;
  if (b : bool) then
    e ← expect (pr_end p) "unwrap on None";
    if e <=? now_ms c then
      q ← bb_reached st r id;
      if (q : bool) then
        '(st', r') ← bb_put_mpip st r id (mkMpip (pr_id p) (pr_content p) (pr_creator p) (pr_start p) (pr_end p) (pr_draft p) true (pr_canceled p) (pr_quorum p));
        Ok (st', r', ONone)
      else Ok (st, r, ONone)
    else Ok (st, r, ONone)
  else Ok (st, r, ONone).

Definition bb_exec (c : ctx) (st : flat) (r : broot) (o : mop) : res (flat * broot * mout) :=
  let roles := with_roles r in let nums := with_numbers r in
  match o with
  (* lib.rs:108, 114, 120, 273 *)
  | UpdateOpen b => bb_set c st r bb_admin (roles (bo_admin r) (bo_operator r) (bo_vote r) b)
  | UpdateOperatorRole a => bb_set c st r bb_admin (roles (bo_admin r) a (bo_vote r) (bo_open r))
  | UpdateAdminRole a => bb_set c st r bb_admin (roles a (bo_operator r) (bo_vote r) (bo_open r))
  | UpdateMetaVoteAddress a => bb_set c st r bb_admin (roles (bo_admin r) (bo_operator r) a (bo_open r))
  (* lib.rs:125 *)
  | PayToAccount n a => _ ← non_payable c; _ ← bb_admin c r; Ok (st, r, OPay a n)
  (* lib.rs:135, 148, 154, 160 *)
  | UpdateVotingPeriod n => bb_set c st r bb_operator (nums n (bo_min_meta r) (bo_min_vp r) (bo_storage r) (bo_floor r))
  | UpdateMinMeta n => bb_set c st r bb_operator (nums (bo_period r) n (bo_min_vp r) (bo_storage r) (bo_floor r))
  | UpdateMinVp n => bb_set c st r bb_operator (nums (bo_period r) (bo_min_meta r) n (bo_storage r) (bo_floor r))
  | UpdateStorage n => bb_set c st r bb_operator (nums (bo_period r) (bo_min_meta r) (bo_min_vp r) n (bo_floor r))
  (* lib.rs:166 *)
  | UpdateQuorumFloor n =>
      _ ← non_payable c; _ ← bb_operator c r; _ ← require (n <=? ONE_HUNDRED) "Incorrect quorum basis points.";
      Ok (st, nums (bo_period r) (bo_min_meta r) (bo_min_vp r) (bo_storage r) n, ONone)
  | StartVoting id => bb_start c st r id
  | CreateProposal ct => bb_create c st r ct
  | CancelProposal id => bb_cancel c st r id
  | UpdateProposal id ct => bb_update c st r id ct
  | VoteProposal id vt memo => bb_vote c st r id vt memo
  | RemoveVoteProposal id => bb_remove_vote c st r id
  | ProcessVotingStatus id => bb_process c st r id
  end.
(** lib.rs:192, 230, 397: with the text returned *)
Definition bb_callback (c : ctx) (st : flat) (r : broot) (k : pkind) (a : answer) : res (flat * broot * string) :=
  match k with
  | KStart id => '(st', r') ← bb_start_callback c st r id a; Ok (st', r', "")
  | KCreate ct => '(st', r', id) ← bb_create_callback c st r ct a; Ok (st', r', write (VNum id))
  | KVote id voter vt memo => '(st', r') ← bb_vote_callback st r id voter vt memo a; Ok (st', r', "")
  end.

(** ** The views, lib.rs:278-366, 469-487 *)
(** mpip.rs:131-157 *)
Definition bb_succeeded (st : flat) (r : broot) (id : N) : res bool := v ← bb_pvote st r id; Ok (v_against v <? v_for v).
Definition bb_state (now : N) (st : flat) (r : broot) (id : N) : res mpip_state :=
  p ← bb_mpip st r id;
  if pr_executed p then Ok StExecuted
  else if pr_canceled p then Ok StCanceled
  else if pr_draft p then Ok StDraft
  else
    b ← is_on_voting now p;
    if (b : bool) then Ok StVotingProcess
    else if is_active now p then Ok StActive
    else
      q ← bb_reached st r id;
      if (q : bool) then ok ← bb_succeeded st r id; Ok (if (ok : bool) then StAccepted else StRejected) else Ok StRejected.
Definition bb_answer (c : ctx) (st : flat) (r : broot) (q : boardq) : res val :=
  match q with
  | BMine a | BIds a => l ← bb_proposer st r a; Ok (items VNum l)
  | BEnough n => Ok (VBool (bo_min_vp r <=? n))
  | BFee => Ok (VBig (bo_storage r))
  | BVotes id =>
      v ← bb_pvote st r id; l ← u_iter dec_id dec_vote st (v_voted v); Ok (votes_val (v_for v, v_against v, v_abstain v, l))
  | BReached id => _ ← bb_operator c r; b ← bb_reached st r id; Ok (VBool b)
  | BSucceeded id => b ← bb_succeeded st r id; Ok (VBool b)
  | BState id => t ← bb_state (now_ms c) st r id; Ok (state_val t)
  | BProposal id => p ← bb_mpip st r id; Ok (proposal_val p)
  | BProposals from limit =>
      let n := N.to_nat (um_klen (bo_props r)) in let start := N.to_nat from in
      if (n <=? start)%nat then Ok VNone
      else
        l ← mapMr (fun i => ok ← u_key (dec_uint 4) st (bo_props r) i; k ← expect ok "unwrap on None";
                            op ← u_get dec_mpip st (bo_props r) (enc_uint 4 k); expect op "unwrap on None")
              (seq start (Nat.min (start + N.to_nat limit) n - start));
        Ok (VSome (items proposal_val l))
  | BLast => n ← b_len (bo_props r); if 0 <? n then x ← sub128 (n mod U32_SIZE) 1; Ok (VSome (VNum x)) else Ok VNone
  | BFloor => Ok (VNum (bo_floor r))
  | BThreshold => Ok (VBig (bo_min_vp r))
  | BTotalVoters => n ← b_len (bo_voters r); Ok (VStr (pretty n))
  | BActive id => p ← bb_mpip st r id; Ok (VBool (is_active_or_draft (now_ms c) p))
  | BVoted voter id => b ← bb_has_voted st r id voter; Ok (VBool b)
  | BMyVote voter id =>
      b ← bb_has_voted st r id voter;
      if (b : bool) then
        oh ← u_get dec_umh st (bo_voters r) (enc_str voter); h ← expect oh "Voter has not active votes";
        ou ← u_get dec_vote st h (enc_uint 4 id); u ← expect ou "Voter has no voted on this proposal";
        Ok (VSome (ballot_val (voter, u)))
      else Ok VNone
  | BVoter voter =>
      h ← bb_voter st r voter; l ← u_iter (dec_uint 4) dec_vote st h;
      Ok (VRec [("votes", items ballot_val (map (fun e => (voter, e.2)) l))])
  end.

(** ** A call as it arrives at the account [self]: the method's name, the text of its arguments and, for a callback, the result of
    the promise before it (None: it failed).  The result is the new storage, the text returned and what is sent. *)
Definition bout : Type := string * mout.
Definition INIT : list (string * ty) :=
  [("admin_id", TAcc); ("operator_id", TAcc); ("meta_token_contract_address", TAcc); ("meta_vote_contract_address", TAcc);
   ("voting_period", TDec U64_SIZE); ("min_voting_power_amount", U128); ("mpip_storage_near", U128); ("quorum_floor", U16)].
Definition bb_call (self : string) (st : flat) (c : ctx) (pr : option (option string)) (m a : string) : res (flat * bout) :=
  if bool_decide (m = "new") then
    match read_args INIT a with
    | Some [VStr x; VStr o; VStr t; VStr v; VBig p; VBig vp; VBig s; VNum f] =>
        _ ← non_payable c; st' ← bb_new st (mkMinit self x o t v p vp s f); Ok (st', ("", ONone))
    | _ => Panic "Failed to deserialize input from JSON."
    end
  else
    match read_back (mkReceipt "" "" m a 0 "" None None) with
    | Some k =>
        _ ← non_payable c; _ ← assert_private c self;
        k ← expect k "Failed to deserialize input from JSON.";
        r ← bb_load st;
        p ← expect pr "This is a callback method.";
        '(st', r', t) ← bb_callback c st r k (answer_in p);
        Ok (bb_save st' r', (t, ONone))
    | None =>
        match board_entry m a with
        | Some o => r ← bb_load st; '(st', r', out) ← bb_exec c st r o; Ok (bb_save st' r', ("", out))
        | None =>
            match enter board_views m a with
            | Some q => r ← bb_load st; v ← bb_answer c st r q; Ok (st, (write v, ONone))
            | None => Panic "MethodNotFound, or failed to deserialize input from JSON."
            end
        end
    end.
Definition bbcall : Type := ctx * option (option string) * string * string.
Definition bb_step (self : string) (st : flat) (x : bbcall) : flat :=
  match bb_call self st x.1.1.1 x.1.1.2 x.1.2 x.2 with Ok (st', _) => st' | Panic _ => st end.
Definition bb_run (self : string) (tr : list bbcall) : flat := fold_left (bb_step self) tr ∅.
End Keccak.
