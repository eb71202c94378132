(** Props_Ask.v -- C96: every question that the contracts answer is answered with the JSON text of what they hold. *)

From Verif Require Import AskRest WireProofs MVSpecSized MpipSpecSized MVWitness MpipRefuted Props_World Props_Sized Props_MpipSized Props_KV.
Import World AskSpec.

(** ** The voting contract *)
(** What is answered: only the questions of [mv_asked], to a text that gives their parameters; the answer is the text that [mv_reply]
    writes. *)
Theorem C96_voting_answers :
  forall now s m a t,
    mv_view now s m a = Ok t ->
    exists q, mvq_typed q /\ In m (mv_asked q).1 /\ reads_as (mvq_params q) a (mv_asked q).2 /\ mv_reply now s q = Ok t.
Proof. exact c96_mv_answered. Qed.
Print Assumptions C96_voting_answers.

(** Every question is answered, under each of its names, for whatever text that says the same. *)
Theorem C96_voting_questions :
  forall now s q m a,
    mvq_typed q -> In m (mv_asked q).1 -> reads_as (mvq_params q) a (mv_asked q).2 -> mv_view now s m a = mv_reply now s q.
Proof. exact c96_mv_asked. Qed.
Print Assumptions C96_voting_questions.

(** In every reachable state the answer can be read as the declared type. *)
Theorem C96_voting_readable :
  forall a s0 tr now q t,
    mv_new a = Ok s0 -> Forall sized_call tr -> countable (run s0 tr) -> mv_reply now (run s0 tr) q = Ok t ->
    exists v, json (mv_type q) t = Some v.
Proof. exact c96_mv_readable. Qed.
Print Assumptions C96_voting_readable.

(** And it tells what is asked: the same text is given only for the same value. *)
Theorem C96_voting_tells :
  forall a s0 tr now a' s0' tr' now' q t,
    mv_new a = Ok s0 -> Forall sized_call tr -> countable (run s0 tr) ->
    mv_new a' = Ok s0' -> Forall sized_call tr' -> countable (run s0' tr') ->
    mv_reply now (run s0 tr) q = Ok t -> mv_reply now' (run s0' tr') q = Ok t ->
    mv_same now (run s0 tr) now' (run s0' tr') q.
Proof. exact c96_mv_tells. Qed.
Print Assumptions C96_voting_tells.

(** ** The proposal contract *)
Theorem C96_proposal_answers :
  forall c s m a t,
    board_view c s m a = Ok t ->
    exists q, boardq_typed q /\ m = (board_asked q).1 /\ reads_as (boardq_params q) a (board_asked q).2 /\ board_reply c s q = Ok t.
Proof. exact c96_board_answered. Qed.
Print Assumptions C96_proposal_answers.
Theorem C96_proposal_questions :
  forall c s q a,
    boardq_typed q -> reads_as (boardq_params q) a (board_asked q).2 -> board_view c s (board_asked q).1 a = board_reply c s q.
Proof. exact c96_board_asked. Qed.
Print Assumptions C96_proposal_questions.
Theorem C96_proposal_readable :
  forall a s0 tr c q t,
    mpip_new a = Ok s0 -> sized_args a -> Forall sized_event tr -> Forall by_account tr -> boardq_typed q ->
    board_reply c (w_m (Mpip.wrun (winit s0) tr)) q = Ok t -> exists v, json (board_type q) t = Some v.
Proof. exact c96_board_readable. Qed.
Print Assumptions C96_proposal_readable.
Theorem C96_proposal_tells :
  forall a s0 tr c a' s0' tr' c' q t,
    mpip_new a = Ok s0 -> sized_args a -> Forall sized_event tr -> Forall by_account tr ->
    mpip_new a' = Ok s0' -> sized_args a' -> Forall sized_event tr' -> Forall by_account tr' -> boardq_typed q ->
    board_reply c (w_m (Mpip.wrun (winit s0) tr)) q = Ok t -> board_reply c' (w_m (Mpip.wrun (winit s0') tr')) q = Ok t ->
    board_same c (w_m (Mpip.wrun (winit s0) tr)) c' (w_m (Mpip.wrun (winit s0') tr')) q.
Proof. exact c96_board_tells. Qed.
Print Assumptions C96_proposal_tells.

(** ** The token *)
Theorem C96_token_answers :
  forall t m a r,
    tok_view t m a = Ok r -> exists q, tokq_typed q /\ m = (tok_asked q).1 /\ reads_as (tokq_params q) a (tok_asked q).2 /\ r = tok_reply t q.
Proof. exact c96_tok_answered. Qed.
Print Assumptions C96_token_answers.
Theorem C96_token_questions :
  forall t q a, tokq_typed q -> reads_as (tokq_params q) a (tok_asked q).2 -> tok_view t (tok_asked q).1 a = Ok (tok_reply t q).
Proof. exact c96_tok_asked. Qed.
Print Assumptions C96_token_questions.
Theorem C96_token_readable :
  forall self owner n ms t0 tr q,
    t_new self owner n ms = Ok t0 -> account_id owner -> ms < 2 ^ 128 -> Forall names_account tr ->
    exists v, json (tok_type q) (tok_reply (t_run t0 tr) q) = Some v.
Proof. exact c96_tok_readable. Qed.
Print Assumptions C96_token_readable.
Theorem C96_token_tells :
  forall self owner n ms t0 tr self' owner' n' ms' t0' tr' q,
    t_new self owner n ms = Ok t0 -> account_id owner -> ms < 2 ^ 128 -> Forall names_account tr ->
    t_new self' owner' n' ms' = Ok t0' -> account_id owner' -> ms' < 2 ^ 128 -> Forall names_account tr' ->
    tok_reply (t_run t0 tr) q = tok_reply (t_run t0' tr') q -> tok_same (t_run t0 tr) (t_run t0' tr') q.
Proof. exact c96_tok_tells. Qed.
Print Assumptions C96_token_tells.

(** ** The key-value store *)
Theorem C96_kv_answers :
  forall s m a t,
    kv_view s m a = Ok t -> exists q, kvq_typed q /\ m = (kv_asked q).1 /\ reads_as (kvq_params q) a (kv_asked q).2 /\ kv_reply s q = Ok t.
Proof. exact c96_kv_answered. Qed.
Print Assumptions C96_kv_answers.
Theorem C96_kv_questions :
  forall s q a, kvq_typed q -> reads_as (kvq_params q) a (kv_asked q).2 -> kv_view s (kv_asked q).1 a = kv_reply s q.
Proof. exact c96_kv_asked. Qed.
Print Assumptions C96_kv_questions.
Theorem C96_kv_readable :
  forall s q t, N.of_nat (k_len s) < 2 ^ 64 -> kv_reply s q = Ok t -> exists v, json (kv_type q) t = Some v.
Proof. exact c96_kv_readable. Qed.
Print Assumptions C96_kv_readable.
Theorem C96_kv_tells :
  forall s s' q t,
    N.of_nat (k_len s) < 2 ^ 64 -> N.of_nat (k_len s') < 2 ^ 64 -> kv_reply s q = Ok t -> kv_reply s' q = Ok t -> kv_same s s' q.
Proof. exact c96_kv_tells. Qed.
Print Assumptions C96_kv_tells.

(** ** Examples *)
(** after the history of MVWitness.v: questions as record and as array, with another name, with a text nobody looks at; and questions
    that are refused *)
Definition ask_mv (m a : string) : res string := mv_view 25920000000 (run s0 tr_demo) m a.
Definition refused (r : res string) : bool := match r with Ok _ => false | Panic _ => true end.
Example C96_example_voting :
  Forall sized_call tr_demo /\ countable (run s0 tr_demo) /\
  ask_mv "get_voter_info" " {""x"":1, ""voter_id"" : ""a.near""}" =
    Ok "{""voter_id"":""a.near"",""balance_in_contract"":""11000000"",""locking_positions"":[{""index"":0,""amount"":""110000000"",""locking_period"":90,""voting_power"":""165000000000000000000000000"",""unlocking_started_at"":null,""is_unlocked"":false,""is_unlocking"":false,""is_locked"":true},{""index"":1,""amount"":""35000000"",""locking_period"":300,""voting_power"":""175000000000000000000000000"",""unlocking_started_at"":null,""is_unlocked"":false,""is_unlocking"":false,""is_locked"":true}],""voting_power"":""290000000000000000000000000"",""vote_positions"":[{""votable_address"":""meta-apps"",""votable_object_id"":""app1"",""voting_power"":""40000000000000000000000000""},{""votable_address"":""launches"",""votable_object_id"":""l1"",""voting_power"":""10000000000000000000000000""}]}" /\
  ask_mv "get_contract_info" "nonsense" =
    Ok "{""owner_id"":""own.near"",""operator_id"":""opr.near"",""voter_count"":2,""min_unbond_period"":30,""max_unbond_period"":300,""min_deposit_amount"":""1000000"",""max_locking_positions"":20,""max_voting_positions"":3,""mpdao_token_contract_address"":""mpdao.near"",""stnear_token_contract_address"":""stnear.near"",""registration_cost"":""7"",""prev_governance_contract"":""old.near"",""accumulated_mpdao_distributed_for_claims"":""30000000"",""total_unclaimed_mpdao"":""20000000"",""accum_distributed_stnear_for_claims"":""300000000000000000000"",""total_unclaimed_stnear"":""200000000000000000000"",""evm_delegates_count"":0}" /\
  ask_mv "get_claims" "[0,5]" = Ok "[[""c.near"",""20000000""]]" /\
  ask_mv "get_claimable_meta" "{""voter_id"":""c.near""}" = Ok """20000000""" /\
  ask_mv "get_claimable_mpdao" "{""voter_id"":""c.near""}" = Ok """20000000""" /\
  ask_mv "get_locking_position" "{""voter_id"":""a.near"",""index"":7}" = Ok "null" /\
  ask_mv "get_lock_in_vote_filters" "" = Ok "[0,null,0]" /\
  ask_mv "get_votes_by_app" "{""app_or_contract_address"":""meta-apps""}" = Ok "[[""app1"",""40000000000000000000000000""]]" /\
  map (fun p => refused (ask_mv p.1 p.2))
    [("get_voter_info", "{""account_id"":""a.near""}"); ("get_claims", "{""from_index"":0,""limit"":4294967296}"); ("get_claims", "{""from_index"":""0"",""limit"":5}");
     ("get_delegating_evm_addresses", "{""account_id"":""A""}"); ("get_airdrop_account", "{""account_id"":""nobody.near""}"); ("get_owner", "{}")] = repeat true 6.
Proof. split; [apply Props_Sized.szb_all; vmr|]. split; [split; vmr|]. conj; vmr. Qed.
Example C96_example_reads :
  reads_as (mvq_params (QVoter "a.near")) " {""x"":1, ""voter_id"" : ""a.near""}" (mv_asked (QVoter "a.near")).2 /\
  reads_as (mvq_params (QClaims 0 5)) "[0,5]" (mv_asked (QClaims 0 5)).2 /\ mvq_typed (QClaims 0 5).
Proof. split; [right; vmr|]. split; [right; vmr|split; reflexivity]. Qed.

(** a proposal with a vote *)
Definition tr_ask : list mevent :=
  tr_open ++ [ mc "bob" 30 (VoteProposal 0 VFor "a ""memo"""); ans_pos 0 32 [MpipRefuted.pos 600 true] ].
Definition ask_board (m a : string) : res string := board_view (mcx "x" "x" 0 50) (w_m (Mpip.wrun (winit ms0) tr_ask)) m a.
Lemma by_account_ok tr :
  forallb (fun e => match e with MCall c _ => valid_id (c_pred c) && valid_id (c_signer c) | _ => true end) tr = true -> Forall by_account tr.
Proof.
  intros H. apply List.Forall_forall. intros e He. rewrite forallb_forall in H. specialize (H e He). destruct e as [c o|i ts a]; [|exact I].
  apply andb_prop in H as [H1 H2]. split; apply valid_id_spec; assumption.
Qed.
Example C96_example_proposal :
  mpip_new mia = Ok ms0 /\ Forall sized_event tr_ask /\ Forall by_account tr_ask /\
  ask_board "get_proposal_votes" "{""mpip_id"":0}" =
    Ok "{""for_votes"":""600"",""against_votes"":""0"",""abstain_votes"":""0"",""has_voted"":[{""mpip_id"":0,""voter_id"":""bob"",""vote_type"":""For"",""voting_power"":""600"",""memo"":""a \""memo\""""}]}" /\
  ask_board "get_proposal_state" "{""mpip_id"":0}" = Ok """VotingProcess""" /\
  ask_board "get_last_proposal_id" "{}" = Ok "0" /\
  ask_board "get_proposals" "{""from_index"":1,""limit"":5}" = Ok "null" /\
  map (fun p => refused (ask_board p.1 p.2))
    [("get_proposal", "{""mpip_id"":1}"); ("get_proposal", "{""mpip_id"":""0""}"); ("get_quorum_reached", "{""mpip_id"":0}"); ("get_voter", "{""voter_id"":""B""}")]
    = repeat true 4.
Proof. split; [exact ms0_ok|]. split; [apply Props_MpipSized.szb_all; vmr|]. split; [apply by_account_ok; vmr|]. conj; vmr. Qed.

Definition tok_calls : list tcall := [(cx "own.near" 1 1, TAddMinter "mint.near"); (cx "bob.near" 5 2, TStorageDeposit None)].
Example C96_example_token :
  Forall names_account tok_calls /\
  map (fun p => tok_view (t_run (tok0 "mpdao.near") tok_calls) p.1 p.2)
    [("get_minters", ""); ("ft_total_supply", "{}"); ("ft_balance_of", "{""account_id"":""bob.near""}"); ("storage_balance_bounds", "");
     ("storage_balance_of", "{""account_id"":""bob.near""}"); ("storage_balance_of", "{""account_id"":""eve.near""}")] =
  [Ok "[""mint.near""]"; Ok """1000000000000000000000000000000"""; Ok """0"""; Ok "{""min"":""5"",""max"":""5""}";
   Ok "{""total"":""5"",""available"":""0""}"; Ok "null"].
Proof. split; [|vmr]. constructor; [apply valid_id_spec; reflexivity|]. constructor; [exact I|constructor]. Qed.
Example C96_example_kv :
  map (fun p => kv_view (kv_run (kv_new "own" "op") tr_kv) p.1 p.2)
    [("get_value", "{""key"":""a""}"); ("get_value", "{""key"":""b""}"); ("get_values", "{""from_index"":0,""limit"":9}"); ("get_kv_count", "")] =
  [Ok "null"; Ok """4"""; Ok "[[""c"",""3""],[""b"",""4""],[""d"",""5""]]"; Ok """3"""].
Proof. vmr. Qed.
