(** Mpip.v -- model of /repo/mpip-contract (proposals and their votes).

    Paths in comments are relative to /repo/mpip-contract/src.
    Simplifications: logs and gas are dropped; account ids are arbitrary strings; integer
    arguments are arbitrary [N] (a superset of the Rust ranges).  All UnorderedMaps are ordered
    maps (OMap): the contract-level ones and [has_voted] of a proposal are created once; the
    [votes] map of a voter is dropped only when empty (lib.rs:462), which UMap.v shows to be
    faithful.  keccak256 of the storage prefixes is treated as injective. *)

From Verif Require Export Base OMap UMap.

(** ** Data *)

(** constants.rs:6 *)
Definition ONE_HUNDRED : N := 10000.

(** vote.rs:7-13 *)
Inductive vote_type := VAgainst | VFor | VAbstain.
Global Instance vote_type_eq_dec : EqDecision vote_type.
Proof. solve_decision. Defined.

(** vote.rs:26-34 *)
Record mvote := mkMvote {
  vt_mpip : N;
  vt_type : vote_type;
  vt_power : N;
  vt_memo : string;
}.
Global Instance mvote_eq_dec : EqDecision mvote.
Proof. solve_decision. Defined.

(** the five texts of a proposal, mpip.rs:44-49 *)
Record content := mkContent {
  ct_title : string;
  ct_short : string;
  ct_body : string;
  ct_data : string;
  ct_extra : string;
}.
Global Instance content_eq_dec : EqDecision content.
Proof. solve_decision. Defined.

(** mpip.rs:40-57; MpipJSON (mpip.rs:21-38) has the same fields *)
Record mpip := mkMpip {
  pr_id : N;
  pr_content : content;
  pr_creator : string;
  pr_start : option N;     (* vote_start_timestamp *)
  pr_end : option N;       (* vote_end_timestamp *)
  pr_draft : bool;
  pr_executed : bool;
  pr_canceled : bool;
  pr_quorum : option N;    (* v_power_quorum_to_reach *)
}.
Global Instance eta_mpip : Settable mpip := settable! mkMpip
  <pr_id; pr_content; pr_creator; pr_start; pr_end; pr_draft; pr_executed; pr_canceled; pr_quorum>.
Global Instance mpip_eq_dec : EqDecision mpip.
Proof. solve_decision. Defined.

(** vote_counting.rs:18-24 *)
Record pvote := mkPvote {
  pv_for : N;
  pv_against : N;
  pv_abstain : N;
  pv_voted : omap_t string mvote;
}.
Global Instance eta_pvote : Settable pvote := settable! mkPvote <pv_for; pv_against; pv_abstain; pv_voted>.

(** lib.rs:27-61.  [m_self] is env::current_account_id(). *)
Record mstate := mkMstate {
  m_self : string;
  m_admin : string;
  m_operator : string;
  m_meta_token : string;
  m_meta_vote : string;
  m_proposals : omap_t N mpip;
  m_votes : omap_t N pvote;
  m_voters : omap_t string (omap_t N mvote);
  m_proposers : omap_t string (list N);
  m_period : N;
  m_min_meta : N;
  m_min_st : N;
  m_min_vp : N;
  m_cost_meta : N;
  m_storage : N;
  m_open : bool;
  m_floor : N;
}.
Global Instance eta_mstate : Settable mstate := settable! mkMstate
  <m_self; m_admin; m_operator; m_meta_token; m_meta_vote; m_proposals; m_votes; m_voters;
   m_proposers; m_period; m_min_meta; m_min_st; m_min_vp; m_cost_meta; m_storage; m_open; m_floor>.

(** types.rs:19-29 *)
Record lpj := mkLpj {
  jp_index : option N;
  jp_amount : N;
  jp_days : N;
  jp_vp : N;
  jp_unl : option N;
  jp_is_unlocked : bool;
  jp_is_unlocking : bool;
  jp_is_locked : bool;
}.

(** Promise result: failed, or bytes that may parse as a U128 and may parse as a list of
    positions (internal.rs:157-197). *)
Inductive answer :=
| AFailed
| ABytes (total : option N) (positions : option (list lpj)).

(** A callback waiting for its promise result.  Its receipt keeps the signer of the original
    transaction.  [pd_contract] and [pd_ask] are the queried contract and question. *)
Inductive question := AskTotal | AskPositions (account : string).
Inductive pkind :=
| KStart (id : N)
| KCreate (ct : content)
| KVote (id : N) (voter : string) (vt : vote_type) (memo : string).
Record pending := mkPending {
  pd_signer : string;
  pd_contract : string;
  pd_ask : question;
  pd_kind : pkind;
}.

(** What a call schedules: nothing, a query with callback, or a NEAR transfer. *)
Inductive mout := ONone | OAsk (p : pending) | OPay (to : string) (amount : N).

(** ** Initialisation, lib.rs:65-101 *)
Record minit := mkMinit {
  mi_self : string; mi_admin : string; mi_operator : string; mi_token : string; mi_vote : string;
  mi_period : N; mi_min_vp : N; mi_storage : N; mi_floor : N;
}.
(** lib.rs:66-101 *)
Definition mpip_new (a : minit) : res mstate :=
  _ ← require (mi_floor a <=? ONE_HUNDRED) "Incorrect quorum basis points.";
  Ok (mkMstate (mi_self a) (mi_admin a) (mi_operator a) (mi_token a) (mi_vote a) [] [] [] []
        (mi_period a) 0 0 (mi_min_vp a) 0 (mi_storage a) true (mi_floor a)).

(** ** internal.rs *)

(** internal.rs:7-12 *)
Definition assert_only_admin (c : ctx) (s : mstate) : res unit :=
  require (bool_decide (m_admin s = c_signer c)) "Only the admin can call this function.".
(** internal.rs:14-20 *)
Definition assert_only_operator (c : ctx) (s : mstate) : res unit :=
  require (bool_decide (m_admin s = c_signer c) || bool_decide (m_operator s = c_signer c))
    "Only the operator or admin can call this function.".
(** internal.rs:134-138 *)
Definition get_mpip (s : mstate) (id : N) : res mpip :=
  expect (om_get (m_proposals s) id) "MPIP Id does not exist".
(** internal.rs:22-29 *)
Definition assert_only_operator_or_creator (c : ctx) (s : mstate) (id : N) : res unit :=
  p ← get_mpip s id;
  require (bool_decide (m_operator s = c_signer c) || bool_decide (pr_creator p = c_signer c))
    "Only the admin or proposal creator can call this function.".
(** internal.rs:31-37 *)
Definition assert_only_creator (c : ctx) (s : mstate) (id : N) : res unit :=
  p ← get_mpip s id;
  require (bool_decide (pr_creator p = c_signer c)) "Only the proposal creator can call this function.".
(** internal.rs:46-52 *)
Definition internal_has_voted (s : mstate) (id : N) (voter : string) : bool :=
  match om_get (m_voters s) voter with
  | Some votes => match om_get votes id with Some _ => true | None => false end
  | None => false
  end.
(** internal.rs:68-70 *)
Definition check_threshold (s : mstate) (vp : N) : bool := m_min_vp s <=? vp.
(** internal.rs:72-84 *)
Definition is_active (now : N) (p : mpip) : bool :=
  match pr_start p with
  | Some d => (now <=? d) && negb (pr_draft p) && negb (pr_canceled p) && negb (pr_executed p)
  | None => negb (pr_draft p) && negb (pr_canceled p) && negb (pr_executed p)
  end.
(** internal.rs:86-95 *)
Definition is_active_or_draft (now : N) (p : mpip) : bool :=
  match pr_start p with
  | Some d => (now <=? d) && negb (pr_canceled p) && negb (pr_executed p)
  | None => negb (pr_canceled p) && negb (pr_executed p)
  end.
(** internal.rs:97-111; the unwrap of the end is reached only after [now >= start] *)
Definition is_on_voting (now : N) (p : mpip) : res bool :=
  match pr_start p with
  | Some d =>
      if d <=? now then
        e ← expect (pr_end p) "unwrap on None";
        Ok ((now <=? e) && negb (pr_draft p) && negb (pr_canceled p) && negb (pr_executed p))
      else Ok false
  | None => Ok false
  end.
(** internal.rs:120-132 *)
Definition assert_active_or_draft (c : ctx) (s : mstate) (id : N) : res unit :=
  p ← get_mpip s id;
  require (is_active_or_draft (now_ms c) p) "Proposal is not active or in draft state".
(** internal.rs:127-132 *)
Definition assert_on_voting (c : ctx) (s : mstate) (id : N) : res unit :=
  p ← get_mpip s id;
  b ← is_on_voting (now_ms c) p;
  require b "Proposal is not on voting period".
(** internal.rs:140-144, vote_counting.rs:27-35 *)
Definition get_pvote (s : mstate) (id : N) : pvote :=
  default (mkPvote 0 0 0 []) (om_get (m_votes s) id).
(** internal.rs:214-216 *)
Definition get_mvoter (s : mstate) (voter : string) : omap_t N mvote :=
  default [] (om_get (m_voters s) voter).
(** internal.rs:218-222 *)
Definition get_proposer (s : mstate) (a : string) : list N := default [] (om_get (m_proposers s) a).

(** internal.rs:157-171 *)
Definition total_from_promise (a : answer) : res N :=
  match a with
  | AFailed => Panic "Meta Vote is not available!"
  | ABytes t _ =>
      n ← expect t "unwrap on Err";
      _ ← require (n <? U128_SIZE) "unwrap on Err";
      Ok n
  end.
(** internal.rs:173-197 *)
Definition user_power_from_promise (a : answer) : res N :=
  match a with
  | AFailed => Panic "Meta Vote is not available!"
  | ABytes _ t =>
      l ← expect t "unwrap on Err";
      _ ← require (forallb (fun j => jp_vp j <? U128_SIZE) l) "unwrap on Err";
      foldM (fun r j => if jp_is_locked j then add128 r (jp_vp j) else Ok r) l 0
  end.
(** internal.rs:199-201 *)
Definition get_quorum (s : mstate) (total : N) : res N :=
  x ← mul128 total (m_floor s); Ok (x / 100 / 100).
(** internal.rs:203-212 *)
Definition is_quorum_reached (s : mstate) (id : N) : res bool :=
  let v := get_pvote s id in
  p ← get_mpip s id;
  q ← expect (pr_quorum p) "Proposal quorum has not been set";
  t ← add128 (pv_for v) (pv_abstain v);
  Ok (q <=? t).

(** ** Admin and operator functions, lib.rs:107-171, 273-276 *)
(** lib.rs:108-111 *)
Definition update_open (c : ctx) (s : mstate) (b : bool) : res (mstate * mout) :=
  _ ← non_payable c; _ ← assert_only_admin c s; Ok (s <| m_open := b |>, ONone).
(** lib.rs:114-117 *)
Definition update_operator_role (c : ctx) (s : mstate) (a : string) : res (mstate * mout) :=
  _ ← non_payable c; _ ← assert_only_admin c s; Ok (s <| m_operator := a |>, ONone).
(** lib.rs:120-123 *)
Definition update_admin_role (c : ctx) (s : mstate) (a : string) : res (mstate * mout) :=
  _ ← non_payable c; _ ← assert_only_admin c s; Ok (s <| m_admin := a |>, ONone).
(** lib.rs:125-128 *)
Definition pay_to_account (c : ctx) (s : mstate) (amount : N) (to : string) : res (mstate * mout) :=
  _ ← non_payable c; _ ← assert_only_admin c s; Ok (s, OPay to amount).
(** lib.rs:273-276 *)
Definition update_meta_vote_address (c : ctx) (s : mstate) (a : string) : res (mstate * mout) :=
  _ ← non_payable c; _ ← assert_only_admin c s; Ok (s <| m_meta_vote := a |>, ONone).
(** lib.rs:135-138 *)
Definition update_voting_period (c : ctx) (s : mstate) (n : N) : res (mstate * mout) :=
  _ ← non_payable c; _ ← assert_only_operator c s; Ok (s <| m_period := n |>, ONone).
(** lib.rs:148-151 *)
Definition update_min_meta (c : ctx) (s : mstate) (n : N) : res (mstate * mout) :=
  _ ← non_payable c; _ ← assert_only_operator c s; Ok (s <| m_min_meta := n |>, ONone).
(** lib.rs:154-157 *)
Definition update_min_vp (c : ctx) (s : mstate) (n : N) : res (mstate * mout) :=
  _ ← non_payable c; _ ← assert_only_operator c s; Ok (s <| m_min_vp := n |>, ONone).
(** lib.rs:160-163 *)
Definition update_storage (c : ctx) (s : mstate) (n : N) : res (mstate * mout) :=
  _ ← non_payable c; _ ← assert_only_operator c s; Ok (s <| m_storage := n |>, ONone).
(** lib.rs:166-171 *)
Definition update_quorum_floor (c : ctx) (s : mstate) (n : N) : res (mstate * mout) :=
  _ ← non_payable c; _ ← assert_only_operator c s;
  _ ← require (n <=? ONE_HUNDRED) "Incorrect quorum basis points.";
  Ok (s <| m_floor := n |>, ONone).

(** ** Voting period, lib.rs:177-201 *)
(** lib.rs:177-189 *)
Definition start_voting_period (c : ctx) (s : mstate) (id : N) : res (mstate * mout) :=
  _ ← non_payable c;
  _ ← assert_only_operator_or_creator c s id;
  _ ← assert_active_or_draft c s id;
  Ok (s, OAsk (mkPending (c_signer c) (m_meta_vote s) AskTotal (KStart id))).
(** lib.rs:192-201 *)
Definition start_callback (c : ctx) (s : mstate) (id : N) (a : answer) : res mstate :=
  total ← total_from_promise a;
  p ← get_mpip s id;
  let now := now_ms c in
  e ← add64 now (m_period s);
  q ← get_quorum s total;
  Ok (s <| m_proposals := om_set (m_proposals s) id
             (p <| pr_start := Some now |> <| pr_end := Some e |> <| pr_draft := false |>
                <| pr_quorum := Some q |>) |>).

(** ** Proposals, lib.rs:207-271, mpip.rs:60-84, 111-129 *)
(** lib.rs:208-227 *)
Definition create_proposal (c : ctx) (s : mstate) (ct : content) : res (mstate * mout) :=
  _ ← require (m_open s) "Contract not open for new proposals";
  _ ← require (m_storage s <=? c_deposit c) "The required NEAR to create a proposal";
  Ok (s, OAsk (mkPending (c_signer c) (m_meta_vote s) (AskPositions (c_pred c)) (KCreate ct))).
(** mpip.rs:60-84 *)
Definition new_mpip (c : ctx) (id : N) (ct : content) : mpip :=
  mkMpip id ct (c_signer c) None None true false false None.
(** lib.rs:230-243, mpip.rs:111-129 *)
Definition create_callback (c : ctx) (s : mstate) (ct : content) (a : answer) : res mstate :=
  vp ← user_power_from_promise a;
  _ ← require (check_threshold s vp) "Proposal threshold does not reached";
  let id := N.of_nat (length (m_proposals s)) mod U32_SIZE in
  Ok (s <| m_proposals := om_set (m_proposals s) id (new_mpip c id ct) |>
        <| m_proposers := om_set (m_proposers s) (c_signer c) (get_proposer s (c_signer c) ++ [id]) |>).
(** lib.rs:245-251 *)
Definition cancel_proposal (c : ctx) (s : mstate) (id : N) : res (mstate * mout) :=
  _ ← non_payable c;
  _ ← assert_only_operator_or_creator c s id;
  _ ← assert_active_or_draft c s id;
  p ← get_mpip s id;
  Ok (s <| m_proposals := om_set (m_proposals s) id (p <| pr_canceled := true |>) |>, ONone).
(** lib.rs:253-271 *)
Definition update_proposal (c : ctx) (s : mstate) (id : N) (ct : content) : res (mstate * mout) :=
  _ ← non_payable c;
  _ ← assert_only_creator c s id;
  _ ← assert_active_or_draft c s id;
  p ← get_mpip s id;
  Ok (s <| m_proposals := om_set (m_proposals s) id (p <| pr_content := ct |>) |>, ONone).

(** ** Votes, lib.rs:372-467 *)
(** lib.rs:372-394 *)
Definition vote_proposal (c : ctx) (s : mstate) (id : N) (vt : vote_type) (memo : string)
  : res (mstate * mout) :=
  _ ← non_payable c;
  _ ← assert_on_voting c s id;
  _ ← require (negb (internal_has_voted s id (c_pred c))) "Account has already voted";
  Ok (s, OAsk (mkPending (c_signer c) (m_meta_vote s) (AskPositions (c_pred c))
                 (KVote id (c_pred c) vt memo))).
(** lib.rs:423-433 *)
Definition add_tally (v : pvote) (vt : vote_type) (n : N) : res pvote :=
  match vt with
  | VFor => x ← add128 (pv_for v) n; Ok (v <| pv_for := x |>)
  | VAgainst => x ← add128 (pv_against v) n; Ok (v <| pv_against := x |>)
  | VAbstain => x ← add128 (pv_abstain v) n; Ok (v <| pv_abstain := x |>)
  end.
(** lib.rs:447-457 *)
Definition sub_tally (v : pvote) (vt : vote_type) (n : N) : res pvote :=
  match vt with
  | VFor => x ← sub128 (pv_for v) n; Ok (v <| pv_for := x |>)
  | VAgainst => x ← sub128 (pv_against v) n; Ok (v <| pv_against := x |>)
  | VAbstain => x ← sub128 (pv_abstain v) n; Ok (v <| pv_abstain := x |>)
  end.
(** lib.rs:397-437 *)
Definition vote_callback (s : mstate) (id : N) (voter : string) (vt : vote_type) (memo : string)
  (a : answer) : res mstate :=
  vp ← user_power_from_promise a;
  _ ← require (0 <? vp) "Not enough voting power to vote!";
  let vote := mkMvote id vt vp memo in
  let v := get_pvote s id in
  v1 ← add_tally (v <| pv_voted := om_set (pv_voted v) voter vote |>) vt vp;
  Ok (s <| m_votes := om_set (m_votes s) id v1 |>
        <| m_voters := om_set (m_voters s) voter (om_set (get_mvoter s voter) id vote) |>).
(** lib.rs:439-467 *)
Definition remove_vote_proposal (c : ctx) (s : mstate) (id : N) : res (mstate * mout) :=
  _ ← non_payable c;
  _ ← assert_on_voting c s id;
  _ ← require (internal_has_voted s id (c_pred c)) "Account has not voted";
  let v := get_pvote s id in
  u ← expect (om_get (pv_voted v) (c_pred c)) "unwrap on None";
  v1 ← sub_tally v (vt_type u) (vt_power u);
  let v2 := v1 <| pv_voted := om_remove (pv_voted v1) (c_pred c) |> in
  let mine := om_remove (get_mvoter s (c_pred c)) id in
  let voters' := match mine with
                 | [] => om_remove (m_voters s) (c_pred c)
                 | _ => om_set (m_voters s) (c_pred c) mine
                 end in
  Ok (s <| m_votes := om_set (m_votes s) id v2 |> <| m_voters := voters' |>, ONone).

(** lib.rs:493-506 *)
Definition process_voting_status (c : ctx) (s : mstate) (id : N) : res (mstate * mout) :=
  _ ← non_payable c;
  _ ← assert_only_operator c s;
  p ← get_mpip s id;
  b ← is_on_voting (now_ms c) p;
  if (b : bool) then
    e ← expect (pr_end p) "unwrap on None";
    if e <=? now_ms c then
      q ← is_quorum_reached s id;
      if (q : bool) then
        Ok (s <| m_proposals := om_set (m_proposals s) id (p <| pr_executed := true |>) |>, ONone)
      else Ok (s, ONone)
    else Ok (s, ONone)
  else Ok (s, ONone).

(** ** Views, lib.rs:278-366, 469-487, mpip.rs:131-157.  [now]: milliseconds. *)
Inductive mpip_state :=
| StDraft | StActive | StVotingProcess | StAccepted | StRejected | StExecuted | StCanceled.
Global Instance mpip_state_eq_dec : EqDecision mpip_state.
Proof. solve_decision. Defined.

(** lib.rs:307-310 *)
Definition get_proposal_vote_succeeded (s : mstate) (id : N) : bool :=
  pv_against (get_pvote s id) <? pv_for (get_pvote s id).
(** lib.rs:312-314, mpip.rs:131-157 *)
Definition get_proposal_state (now : N) (s : mstate) (id : N) : res mpip_state :=
  p ← get_mpip s id;
  if pr_executed p then Ok StExecuted
  else if pr_canceled p then Ok StCanceled
  else if pr_draft p then Ok StDraft
  else
    b ← is_on_voting now p;
    if (b : bool) then Ok StVotingProcess
    else if is_active now p then Ok StActive
    else
      q ← is_quorum_reached s id;
      if (q && get_proposal_vote_succeeded s id)%bool then Ok StAccepted else Ok StRejected.
(** get_quorum_reached asserts the caller, lib.rs:301-305 *)
Definition get_quorum_reached (c : ctx) (s : mstate) (id : N) : res bool :=
  _ ← assert_only_operator c s; is_quorum_reached s id.
(** lib.rs:316-319 *)
Definition get_proposal (s : mstate) (id : N) : res mpip := get_mpip s id.
(** vote.rs:16-24, 51-60: a vote with its voter *)
Definition vote_json := (string * mvote)%type.
(** vote_counting.rs:37-52: (for, against, abstain, votes) *)
Definition get_proposal_votes (s : mstate) (id : N) : N * N * N * list vote_json :=
  let v := get_pvote s id in (pv_for v, pv_against v, pv_abstain v, pv_voted v).
(** lib.rs:321-338 *)
Definition get_proposals (s : mstate) (from limit : nat) : res (option (list mpip)) :=
  let n := length (m_proposals s) in
  if (n <=? from)%nat then Ok None
  else
    l ← mapMr (fun i => k ← expect ((m_proposals s).*1 !! i) "unwrap on None";
                        expect (om_get (m_proposals s) k) "unwrap on None")
          (seq from (Nat.min (from + limit) n - from));
    Ok (Some l).
(** lib.rs:340-342 *)
Definition get_user_proposals_ids (s : mstate) (a : string) : list N := get_proposer s a.
(** lib.rs:278-280 *)
Definition get_my_proposals (s : mstate) (a : string) : list N := get_proposer s a.
(** lib.rs:344-350 *)
Definition get_last_proposal_id (s : mstate) : res (option N) :=
  match length (m_proposals s) with
  | O => Ok None
  | S n => x ← sub128 (N.of_nat (S n) mod U32_SIZE) 1; Ok (Some x)
  end.
(** lib.rs:360-362 *)
Definition get_total_voters (s : mstate) : string := pretty (N.of_nat (length (m_voters s))).
(** lib.rs:364-366 *)
Definition get_proposal_is_active_or_draft (now : N) (s : mstate) (id : N) : res bool :=
  p ← get_mpip s id; Ok (is_active_or_draft now p).
(** lib.rs:469-471 *)
Definition has_voted (s : mstate) (voter : string) (id : N) : bool := internal_has_voted s id voter.
(** lib.rs:473-482, internal.rs:146-155 *)
Definition get_my_vote (s : mstate) (voter : string) (id : N) : res (option vote_json) :=
  if internal_has_voted s id voter then
    votes ← expect (om_get (m_voters s) voter) "Voter has not active votes";
    v ← expect (om_get votes id) "Voter has no voted on this proposal";
    Ok (Some (voter, v))
  else Ok None.
(** voter.rs:25-34 *)
Definition get_voter_votes (s : mstate) (voter : string) : list vote_json :=
  map (fun e => (voter, e.2)) (get_mvoter s voter).

(** ** The contract with its pending callbacks as a transition system *)
Inductive mop :=
| UpdateOpen (b : bool)
| UpdateOperatorRole (a : string)
| UpdateAdminRole (a : string)
| PayToAccount (amount : N) (to : string)
| UpdateMetaVoteAddress (a : string)
| UpdateVotingPeriod (n : N)
| UpdateMinMeta (n : N)
| UpdateMinVp (n : N)
| UpdateStorage (n : N)
| UpdateQuorumFloor (n : N)
| StartVoting (id : N)
| CreateProposal (ct : content)
| CancelProposal (id : N)
| UpdateProposal (id : N) (ct : content)
| VoteProposal (id : N) (vt : vote_type) (memo : string)
| RemoveVoteProposal (id : N)
| ProcessVotingStatus (id : N).

Definition mcall (c : ctx) (s : mstate) (o : mop) : res (mstate * mout) :=
  match o with
  | UpdateOpen b => update_open c s b
  | UpdateOperatorRole a => update_operator_role c s a
  | UpdateAdminRole a => update_admin_role c s a
  | PayToAccount n a => pay_to_account c s n a
  | UpdateMetaVoteAddress a => update_meta_vote_address c s a
  | UpdateVotingPeriod n => update_voting_period c s n
  | UpdateMinMeta n => update_min_meta c s n
  | UpdateMinVp n => update_min_vp c s n
  | UpdateStorage n => update_storage c s n
  | UpdateQuorumFloor n => update_quorum_floor c s n
  | StartVoting id => start_voting_period c s id
  | CreateProposal ct => create_proposal c s ct
  | CancelProposal id => cancel_proposal c s id
  | UpdateProposal id ct => update_proposal c s id ct
  | VoteProposal id vt memo => vote_proposal c s id vt memo
  | RemoveVoteProposal id => remove_vote_proposal c s id
  | ProcessVotingStatus id => process_voting_status c s id
  end.

(** The #[private] callbacks.  Called by anyone else than the contract they panic; called by the
    contract account outside a callback receipt they panic as well, because
    promise_results_count() is 0 (internal.rs:158, 174).  So they run only as scheduled. *)
Definition mcallback (c : ctx) (s : mstate) (k : pkind) (a : answer) : res mstate :=
  match k with
  | KStart id => start_callback c s id a
  | KCreate ct => create_callback c s ct a
  | KVote id voter vt memo => vote_callback s id voter vt memo a
  end.

Record world := mkWorld { w_m : mstate; w_pend : list pending }.

(** [MAnswer i ts a]: the callback of the [i]-th pending query runs at time [ts] with answer [a]. *)
Inductive mevent :=
| MCall (c : ctx) (o : mop)
| MAnswer (i : nat) (ts : N) (a : answer).

Definition event_ts (x : mevent) : N := match x with MCall c _ => c_ts c | MAnswer _ ts _ => ts end.
Definition callback_ctx (s : mstate) (p : pending) (ts : N) : ctx :=
  mkCtx (m_self s) (pd_signer p) 0 ts (fun _ => None) (fun _ => None).

(** A panicking receipt leaves the state unchanged; a panicking callback is gone. *)
Definition wstep (w : world) (x : mevent) : world :=
  match x with
  | MCall c o =>
      match mcall c (w_m w) o with
      | Ok (s', OAsk p) => mkWorld s' (w_pend w ++ [p])
      | Ok (s', _) => mkWorld s' (w_pend w)
      | Panic _ => w
      end
  | MAnswer i ts a =>
      match w_pend w !! i with
      | None => w
      | Some p =>
          mkWorld (match mcallback (callback_ctx (w_m w) p ts) (w_m w) (pd_kind p) a with
                   | Ok s' => s'
                   | Panic _ => w_m w
                   end) (delete i (w_pend w))
      end
  end.
Definition wrun (w : world) (tr : list mevent) : world := fold_left wstep tr w.
Definition winit (s : mstate) : world := mkWorld s [].

(** ** Getters, lib.rs:287-294, 352-358 *)
Definition check_proposal_threshold (s : mstate) (vp : N) : bool := check_threshold s vp.
Definition get_mpip_storage_near (s : mstate) : N := m_storage s.
Definition get_quorum_floor (s : mstate) : N := m_floor s.
Definition get_proposal_threshold (s : mstate) : N := m_min_vp s.
