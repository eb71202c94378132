(** Props_Mpip.v -- C38-C52: proposals, their votes and their life. *)

From Verif Require Import MpipRefuted.

(** C38 *)
Theorem C38_tallies_exact :
  forall a s0 tr, mpip_new a = Ok s0 -> walong no_double_vote (winit s0) tr ->
    forall id t, tally (w_m (wrun (winit s0) tr)) id t = recorded (w_m (wrun (winit s0) tr)) id t.
Proof. exact c38_exact. Qed.
Print Assumptions C38_tallies_exact.
Theorem C38_tallies_never_below :
  forall w tr, mreach w tr -> forall id t, recorded (w_m w) id t <= tally (w_m w) id t.
Proof. exact c38_lower. Qed.
Print Assumptions C38_tallies_never_below.
Theorem C38_refuted :
  ~ (forall a s0 tr, mpip_new a = Ok s0 -> mtimed tr -> mall_ok (winit s0) tr = true ->
       forall id t, tally (w_m (wrun (winit s0) tr)) id t = recorded (w_m (wrun (winit s0) tr)) id t).
Proof. exact r_c38. Qed.
Print Assumptions C38_refuted.

(** three voters, one of whom removes the vote and votes again with other power *)
Definition tr_votes : list mevent :=
  tr_open ++
  [ mc "bob" 30 (VoteProposal 0 VFor "a"); mc "carol" 31 (VoteProposal 0 VFor "b"); mc "dan" 32 (VoteProposal 0 VAbstain "c");
    ans_pos 1 33 [pos 50 true; pos 60 true; pos 999 false]; ans_pos 0 34 [pos 300 true]; ans_pos 0 35 [pos 7 true];
    mc "bob" 40 (RemoveVoteProposal 0); mc "bob" 41 (VoteProposal 0 VAgainst "d"); ans_pos 0 42 [pos 290 true] ].
Lemma tr_votes_ok : mall_ok mw0 tr_votes = true.
Proof. mvmr. Qed.
Ltac nodouble := let H := fresh in intros H; apply in_flight_iff in H; vm_compute in H;
  repeat (apply elem_of_cons in H as [H|H]; [discriminate H|]); inversion H.
Example C38_example :
  walong no_double_vote mw0 tr_votes /\ let s := w_m (wrun mw0 tr_votes) in
  tally s 0 VFor = 110 /\ tally s 0 VAgainst = 290 /\ tally s 0 VAbstain = 7 /\
  recorded s 0 VFor = 110 /\ recorded s 0 VAgainst = 290 /\ map fst (listed s 0) = ["carol"; "dan"; "bob"].
Proof.
  split; [|mconj; mvmr].
  unfold tr_votes, tr_open. cbn [app]. cbn [walong]. 
  repeat match goal with |- _ /\ _ => split end; try exact I; unfold mc, mcreate, ans_pos, ans_total, no_double_vote; try exact I; nodouble.
Qed.

(** C39 *)
Theorem C39_remove_vote_total :
  forall w tr c id p, mreach w tr -> let s := w_m w in
    c_deposit c = 0 -> get_proposal s id = Ok p -> in_window (now_ms c) p -> has_voted s (c_pred c) id = true ->
    exists s' u, mcall c s (RemoveVoteProposal id) = Ok (s', ONone) /\
      get_my_vote s (c_pred c) id = Ok (Some (c_pred c, u)) /\
      has_voted s' (c_pred c) id = false /\
      (forall t, tally s' id t + (if decide (vt_type u = t) then vt_power u else 0) = tally s id t) /\
      (forall t, recorded s' id t + (if decide (vt_type u = t) then vt_power u else 0) = recorded s id t) /\
      (forall id' t, id' <> id -> tally s' id' t = tally s id' t) /\
      (forall v id', (v, id') <> (c_pred c, id) -> get_my_vote s' v id' = get_my_vote s v id').
Proof. intros w tr c id p Hr s Hd Hp Hw. apply in_window_iff in Hw. exact (c39 w tr c id p Hr Hd Hp Hw). Qed.
Print Assumptions C39_remove_vote_total.
Example C39_example :
  let s := w_m (wrun mw0 tr_double) in
  (exists p, get_proposal s 0 = Ok p /\ in_window 50 p) /\ has_voted s "bob" 0 = true /\
  let s' := w_m (wstep (wrun mw0 tr_double) (mc "bob" 50 (RemoveVoteProposal 0))) in
  tally s 0 VFor = 300 /\ tally s 0 VAgainst = 300 /\ tally s' 0 VFor = 300 /\ tally s' 0 VAgainst = 0.
Proof.
  cbv zeta. split; [|mconj; mvmr].
  assert (E : get_proposal (w_m (wrun mw0 tr_double)) 0 =
    Ok (mkMpip 0 (mkContent "P0" "s" "b" "d" "e") "alice" (Some 20) (Some 1020) false false false (Some 500))) by mvmr.
  eexists. split; [exact E|]. exists 20, 1020. cbn. repeat split; lia.
Qed.

(** C40 *)
Theorem C40_records_agree :
  forall w tr, mreach w tr -> let s := w_m w in
    (forall id, NoDup (listed s id).*1) /\
    (forall v id j, get_my_vote s v id = Ok (Some j) <-> In j (listed s id) /\ j.1 = v) /\
    (forall v id, has_voted s v id = true <-> exists j, In j (listed s id) /\ j.1 = v) /\
    (forall v j, In j (get_voter_votes s v) <-> get_my_vote s v (vt_mpip j.2) = Ok (Some j)) /\
    (exists l, NoDup l /\ (forall v, In v l <-> exists id, has_voted s v id = true) /\
       get_total_voters s = pretty (N.of_nat (length l))).
Proof. exact c40. Qed.
Print Assumptions C40_records_agree.
Example C40_example :
  let s := w_m (wrun mw0 tr_votes) in
  get_my_vote s "carol" 0 = Ok (Some ("carol", mkMvote 0 VFor 110 "b")) /\
  get_my_vote s "eve" 0 = Ok None /\ get_total_voters s = "3".
Proof. mconj; mvmr. Qed.

(** C41 *)
Theorem C41_ids_dense :
  forall w tr, mreach w tr -> let s := w_m w in few_proposals s ->
    (forall id, (exists p, get_proposal s id = Ok p) <-> id < N.of_nat (n_proposals s)) /\
    (forall id p, get_proposal s id = Ok p -> pr_id p = id) /\
    get_last_proposal_id s = Ok (if decide (n_proposals s = 0%nat) then None else Some (N.of_nat (n_proposals s) - 1)) /\
    (forall a, get_user_proposals_ids s a = List.filter (created_by s a) (map N.of_nat (seq 0 (n_proposals s)))).
Proof. exact c41_state. Qed.
Print Assumptions C41_ids_dense.
Theorem C41_creation_order :
  forall w tr x, mreach w tr -> few_proposals (w_m w) -> let s := w_m w in let s' := w_m (wstep w x) in
    (n_proposals s' = n_proposals s \/
     n_proposals s' = S (n_proposals s) /\ exists p, get_proposal s' (N.of_nat (n_proposals s)) = Ok p /\
       pr_id p = N.of_nat (n_proposals s) /\
       get_user_proposals_ids s' (pr_creator p) = get_user_proposals_ids s (pr_creator p) ++ [pr_id p]).
Proof. exact c41_step. Qed.
Print Assumptions C41_creation_order.
Theorem C41_permanent :
  forall w tr tr', mreach w tr -> few_proposals (w_m (wrun w tr')) ->
    forall id p, get_proposal (w_m w) id = Ok p -> exists p', get_proposal (w_m (wrun w tr')) id = Ok p' /\
      pr_id p' = pr_id p /\ pr_creator p' = pr_creator p.
Proof. exact c41_permanent. Qed.
Print Assumptions C41_permanent.
Definition tr_three : list mevent :=
  [ mcreate "alice" 10 "P0"; mcreate "bob" 10 "P1"; mcreate "alice" 10 "P2";
    ans_pos 1 11 [pos 100 true]; ans_pos 0 11 [pos 100 true]; ans_pos 0 12 [pos 100 true] ].
Example C41_example :
  mall_ok mw0 tr_three = true /\ let s := w_m (wrun mw0 tr_three) in
  n_proposals s = 3%nat /\ get_user_proposals_ids s "alice" = [1; 2] /\ get_user_proposals_ids s "bob" = [0] /\
  get_last_proposal_id s = Ok (Some 2).
Proof. mconj; mvmr. Qed.

(** C42 *)
Theorem C42_final_states :
  forall w tr tr' id now, mreach w tr -> few_proposals (w_m (wrun w tr')) ->
    let s := w_m w in let s' := w_m (wrun w tr') in
    (get_proposal_state now s id = Ok StCanceled -> forall now', get_proposal_state now' s' id = Ok StCanceled) /\
    (get_proposal_state now s id = Ok StExecuted -> forall now', get_proposal_state now' s' id = Ok StExecuted) /\
    (forall p, get_proposal s id = Ok p -> get_proposal_state now s id <> Ok StDraft ->
       forall now', get_proposal_state now' s' id <> Ok StDraft).
Proof. exact c42. Qed.
Print Assumptions C42_final_states.
(** the flags themselves, so that neither hides the other *)
Theorem C42_final_flags :
  forall w tr tr', mreach w tr -> few_proposals (w_m (wrun w tr')) ->
    forall id p, get_proposal (w_m w) id = Ok p -> exists p', get_proposal (w_m (wrun w tr')) id = Ok p' /\
      (pr_canceled p = true -> pr_canceled p' = true /\ pr_executed p' = pr_executed p) /\
      (pr_executed p = true -> pr_executed p' = true /\ pr_canceled p' = pr_canceled p) /\
      (pr_draft p = false -> pr_draft p' = false).
Proof. exact c42_run. Qed.
Print Assumptions C42_final_flags.
Example C42_example :
  get_proposal_state 30 (w_m (wrun mw0 tr_cancel)) 0 = Ok StCanceled /\
  get_proposal_state 1020 (w_m (wrun mw0 (tr_accept ++ [mc "op.near" 1020 (ProcessVotingStatus 0)]))) 0 = Ok StExecuted /\
  get_proposal_state 30 (w_m (wrun mw0 tr_open)) 0 = Ok StVotingProcess.
Proof. mconj; mvmr. Qed.

(** C43 *)
Theorem C43_execution_needs_quorum :
  forall w tr x id p p', mreach w tr -> few_proposals (w_m w) -> let s := w_m w in
    get_proposal s id = Ok p -> get_proposal (w_m (wstep w x)) id = Ok p' ->
    pr_executed p = false -> pr_executed p' = true ->
    exists c q, x = MCall c (ProcessVotingStatus id) /\ (m_admin s = c_signer c \/ m_operator s = c_signer c) /\
      pr_canceled p = false /\ pr_draft p = false /\ pr_quorum p = Some q /\
      q <= tally s id VFor + tally s id VAbstain /\ pr_end p = Some (now_ms c).
Proof. exact c43. Qed.
Print Assumptions C43_execution_needs_quorum.
Theorem C43_refuted :
  ~ (forall a s0 tr c id, mpip_new a = Ok s0 -> mtimed tr ->
       let s := w_m (wrun (winit s0) tr) in
       let s' := w_m (wstep (wrun (winit s0) tr) (MCall c (ProcessVotingStatus id))) in
       get_proposal_state (now_ms c) s id <> Ok StExecuted -> get_proposal_state (now_ms c) s' id = Ok StExecuted ->
       tally s id VAgainst < tally s id VFor).
Proof. exact r_c43. Qed.
Print Assumptions C43_refuted.
Example C43_example :
  let w := wrun mw0 tr_accept in let w' := wstep w (mc "op.near" 1020 (ProcessVotingStatus 0)) in
  get_proposal_state 1020 (w_m w) 0 = Ok StVotingProcess /\ get_proposal_state 1020 (w_m w') 0 = Ok StExecuted /\
  tally (w_m w) 0 VFor = 600.
Proof. mconj; mvmr. Qed.

(** C44 *)
Theorem C44_executable_at_the_end :
  forall w tr c id p q d, mreach w tr -> let s := w_m w in
    c_deposit c = 0 -> (m_admin s = c_signer c \/ m_operator s = c_signer c) ->
    get_proposal s id = Ok p -> pr_draft p = false -> pr_canceled p = false -> pr_executed p = false ->
    pr_start p = Some d -> d <= now_ms c -> pr_end p = Some (now_ms c) ->
    pr_quorum p = Some q -> q <= tally s id VFor + tally s id VAbstain ->
    tally s id VFor + tally s id VAbstain < 2 ^ 128 ->
    exists s' p', mcall c s (ProcessVotingStatus id) = Ok (s', ONone) /\
      get_proposal s' id = Ok p' /\ pr_executed p' = true.
Proof. exact c44_at_end. Qed.
Print Assumptions C44_executable_at_the_end.
Theorem C44_missed_forever :
  forall w tr tr' id p d e,
    mreach w tr -> get_proposal (w_m w) id = Ok p -> pr_executed p = false ->
    pr_start p = Some d -> pr_end p = Some e -> d <= e -> ~ start_in_flight w id ->
    Forall (fun x => e < event_ts x / 1000000) tr' -> few_proposals (w_m (wrun w tr')) ->
    exists p', get_proposal (w_m (wrun w tr')) id = Ok p' /\ pr_executed p' = false.
Proof. exact c44_missed. Qed.
Print Assumptions C44_missed_forever.
Theorem C44_refuted :
  ~ (forall a s0 tr c id, mpip_new a = Ok s0 -> mtimed tr ->
       let s := w_m (wrun (winit s0) tr) in
       let s' := w_m (wstep (wrun (winit s0) tr) (MCall c (ProcessVotingStatus id))) in
       get_proposal_state (now_ms c) s id = Ok StAccepted -> c_signer c = m_operator s -> c_deposit c = 0 ->
       get_proposal_state (now_ms c) s' id = Ok StExecuted).
Proof. exact r_c44. Qed.
Print Assumptions C44_refuted.
Example C44_example :
  let w := wrun mw0 tr_accept in
  get_proposal_state 1020 (w_m (wstep w (mc "op.near" 1020 (ProcessVotingStatus 0)))) 0 = Ok StExecuted /\
  get_proposal_state 1021 (w_m (wstep w (mc "op.near" 1021 (ProcessVotingStatus 0)))) 0 = Ok StAccepted /\
  w_pend w = [].
Proof. mconj; mvmr. Qed.

(** C45 *)
Theorem C45_vote_calls_only_in_window :
  forall c s id vt memo, mok c s (VoteProposal id vt memo) ->
    exists p, get_proposal s id = Ok p /\ in_window (now_ms c) p /\ has_voted s (c_pred c) id = false.
Proof. exact c45_vote. Qed.
Print Assumptions C45_vote_calls_only_in_window.
Theorem C45_removals_only_in_window :
  forall c s id, mok c s (RemoveVoteProposal id) ->
    exists p, get_proposal s id = Ok p /\ in_window (now_ms c) p /\ has_voted s (c_pred c) id = true.
Proof. exact c45_remove. Qed.
Print Assumptions C45_removals_only_in_window.
Theorem C45_counted_votes_cast_in_window :
  forall a0 s0 tr i ts a, mpip_new a0 = Ok s0 ->
    let w := wrun (winit s0) tr in let s := w_m w in let s' := w_m (wstep w (MAnswer i ts a)) in
    same_votes s s' \/
    exists tr1 c id vt memo tr2 q u, tr = tr1 ++ MCall c (VoteProposal id vt memo) :: tr2 /\
      get_proposal (w_m (wrun (winit s0) tr1)) id = Ok q /\ in_window (now_ms c) q /\
      get_my_vote s' (c_pred c) id = Ok (Some (c_pred c, u)) /\ vt_type u = vt /\ vt_memo u = memo /\
      (forall v' id', (v', id') <> (c_pred c, id) -> get_my_vote s' v' id' = get_my_vote s v' id').
Proof. exact c45_origin. Qed.
Print Assumptions C45_counted_votes_cast_in_window.
Theorem C45_refuted :
  ~ (forall a s0 tr i ts an id t, mpip_new a = Ok s0 -> mtimed (tr ++ [MAnswer i ts an]) ->
       let w := wrun (winit s0) tr in let w' := wstep w (MAnswer i ts an) in
       tally (w_m w') id t <> tally (w_m w) id t ->
       exists p, get_proposal (w_m w) id = Ok p /\ in_window (ts / 1000000) p).
Proof. exact r_c45. Qed.
Print Assumptions C45_refuted.
Example C45_example :
  event_ok (wrun mw0 tr_open) (mc "bob" 20 (VoteProposal 0 VFor "a")) = true /\
  event_ok (wrun mw0 tr_open) (mc "bob" 1021 (VoteProposal 0 VFor "a")) = false /\
  event_ok (wrun mw0 tr_votes) (mc "bob" 1020 (RemoveVoteProposal 0)) = true /\
  event_ok (wrun mw0 tr_votes) (mc "bob" 1021 (RemoveVoteProposal 0)) = false /\
  tally (w_m (wrun mw0 (tr_cancel ++ [ans_pos 0 20 [pos 9 true]]))) 0 VFor = 9.
Proof. mconj; mvmr. Qed.

(** C46 *)
Theorem C46_vote_weight :
  forall w tr i ts a, mreach w tr -> let s := w_m w in let s' := w_m (wstep w (MAnswer i ts a)) in
    same_votes s s' \/
    exists p id v vt memo t l, w_pend w !! i = Some p /\ pd_kind p = KVote id v vt memo /\
      a = ABytes t (Some l) /\ 1 <= locked_sum l /\
      get_my_vote s' v id = Ok (Some (v, mkMvote id vt (locked_sum l) memo)) /\
      (forall t', tally s' id t' = tally s id t' + (if decide (vt = t') then locked_sum l else 0)) /\
      (forall id' t', id' <> id -> tally s' id' t' = tally s id' t') /\
      (forall v' id', (v', id') <> (v, id) -> get_my_vote s' v' id' = get_my_vote s v' id').
Proof. exact c46. Qed.
Print Assumptions C46_vote_weight.
Theorem C46_failed_answers_count_nothing :
  forall w i ts a, (a = AFailed \/ exists t, a = ABytes t None) ->
    w_pend w !! i = None \/ (exists p id v vt memo, w_pend w !! i = Some p /\ pd_kind p = KVote id v vt memo) ->
    w_m (wstep w (MAnswer i ts a)) = w_m w.
Proof. exact c46_failed. Qed.
Print Assumptions C46_failed_answers_count_nothing.
Example C46_example :
  let w := wrun mw0 tr_late in
  tally (w_m (wstep w (ans_pos 0 31 [pos 3 true; pos 1000 false; pos 4 true]))) 0 VFor = 7 /\
  tally (w_m (wstep w (ans_pos 0 31 [pos 1000 false]))) 0 VFor = 0 /\
  tally (w_m (wstep w (MAnswer 0 31000000 AFailed))) 0 VFor = 0.
Proof. mconj; mvmr. Qed.

(** C47 *)
Theorem C47_signer_has_the_role :
  forall c s o, mok c s o ->
    (admin_call o = true -> c_signer c = m_admin s) /\
    (operator_call o = true -> c_signer c = m_admin s \/ c_signer c = m_operator s) /\
    (forall id, o = StartVoting id \/ o = CancelProposal id ->
       exists p, get_proposal s id = Ok p /\ (c_signer c = m_operator s \/ c_signer c = pr_creator p)) /\
    (forall id ct, o = UpdateProposal id ct -> exists p, get_proposal s id = Ok p /\ c_signer c = pr_creator p).
Proof. exact c47_roles. Qed.
Print Assumptions C47_signer_has_the_role.
Theorem C47_settings_change_only_by_role :
  forall w x, settings (w_m (wstep w x)) <> settings (w_m w) ->
    exists c o, x = MCall c o /\
     (admin_call o = true /\ c_signer c = m_admin (w_m w) \/
      operator_call o = true /\ (c_signer c = m_admin (w_m w) \/ c_signer c = m_operator (w_m w))).
Proof. exact c47_settings. Qed.
Print Assumptions C47_settings_change_only_by_role.
Theorem C47_refuted : ~ (forall c s o, mok c s o -> admin_call o = true -> c_pred c = m_admin s).
Proof. exact r_c47. Qed.
Print Assumptions C47_refuted.
Example C47_example :
  event_ok mw0 (mc "adm.near" 1 (UpdateOpen false)) = true /\ event_ok mw0 (mc "op.near" 1 (UpdateOpen false)) = false /\
  event_ok mw0 (mc "op.near" 1 (UpdateMinVp 7)) = true /\ event_ok mw0 (mc "bob" 1 (UpdateMinVp 7)) = false /\
  m_min_vp (w_m (wstep mw0 (mc "op.near" 1 (UpdateMinVp 7)))) = 7.
Proof. mconj; mvmr. Qed.

(** C48 *)
Theorem C48_floor_bounded : forall w tr, mreach w tr -> m_floor (w_m w) <= 10000.
Proof. exact c48_floor. Qed.
Print Assumptions C48_floor_bounded.
Theorem C48_quorum :
  forall w tr x id p p', mreach w tr -> few_proposals (w_m w) -> let s := w_m w in
    get_proposal s id = Ok p -> get_proposal (w_m (wstep w x)) id = Ok p' -> pr_quorum p' <> pr_quorum p ->
    exists i ts n t q, x = MAnswer i ts (ABytes (Some n) t) /\ w_pend w !! i = Some q /\ pd_kind q = KStart id /\
      pr_quorum p' = Some (n * m_floor s / 10000) /\ n * m_floor s / 10000 <= n.
Proof. exact c48_quorum. Qed.
Print Assumptions C48_quorum.
Example C48_example :
  let w := wrun mw0 (firstn 3 tr_open ++ [mc "op.near" 16 (UpdateQuorumFloor 1234)]) in
  (exists p, get_proposal (w_m (wstep w (ans_total 0 20 99999))) 0 = Ok p /\ pr_quorum p = Some 12339) /\
  event_ok w (mc "op.near" 17 (UpdateQuorumFloor 10001)) = false.
Proof.
  cbv zeta. split; [|mvmr].
  assert (E : get_proposal (w_m (wstep (wrun mw0 (firstn 3 tr_open ++ [mc "op.near" 16 (UpdateQuorumFloor 1234)])) (ans_total 0 20 99999))) 0 =
    Ok (mkMpip 0 (mkContent "P0" "s" "b" "d" "e") "alice" (Some 20) (Some 1020) false false false (Some 12339))) by mvmr.
  eexists. split; [exact E|reflexivity].
Qed.

(** C49 *)
Theorem C49_window_set_once :
  forall a s0 tr tr' id p d,
    mpip_new a = Ok s0 -> mtimed (tr ++ tr') -> walong no_double_start (winit s0) (tr ++ tr') ->
    few_proposals (w_m (wrun (winit s0) (tr ++ tr'))) ->
    get_proposal (w_m (wrun (winit s0) tr)) id = Ok p -> pr_start p = Some d ->
    exists p', get_proposal (w_m (wrun (winit s0) (tr ++ tr'))) id = Ok p' /\
      pr_start p' = Some d /\ pr_end p' = pr_end p /\ pr_quorum p' = pr_quorum p.
Proof. exact c49. Qed.
Print Assumptions C49_window_set_once.
Theorem C49_refuted :
  ~ (forall a s0 tr x id p p', mpip_new a = Ok s0 -> mtimed (tr ++ [x]) ->
       get_proposal (w_m (wrun (winit s0) tr)) id = Ok p -> pr_start p <> None ->
       get_proposal (w_m (wstep (wrun (winit s0) tr) x)) id = Ok p' -> pr_start p' = pr_start p).
Proof. exact r_c49. Qed.
Print Assumptions C49_refuted.
(** a rejected second start, then votes, then a setting change *)
Definition tr_again : list mevent :=
  [ mc "op.near" 21 (StartVoting 0); mc "op.near" 22 (UpdateVotingPeriod 5); mc "bob" 23 (VoteProposal 0 VFor "a");
    ans_pos 0 24 [pos 600 true] ].
Example C49_example :
  mtimed (tr_open ++ tr_again) /\ walong no_double_start mw0 (tr_open ++ tr_again) /\
  get_proposal (w_m (wrun mw0 (tr_open ++ tr_again))) 0 =
    Ok (mkMpip 0 (mkContent "P0" "s" "b" "d" "e") "alice" (Some 20) (Some 1020) false false false (Some 500)).
Proof.
  split; [mtimed_tac|]. split; [|mvmr]. unfold tr_open, tr_again. cbn [app walong].
  repeat match goal with |- _ /\ _ => split end; try exact I; unfold mc, mcreate, ans_pos, ans_total, no_double_start; try exact I;
  (split; [let H := fresh in intros H; apply in_starts_iff in H; vm_compute in H; inversion H|]);
  intros p d Hp Hd; vm_compute in Hp; injection Hp as <-; [discriminate Hd|injection Hd as <-; vm_compute; discriminate].
Qed.

(** C50 *)
Theorem C50_never_active :
  forall a s0 tr id now, mpip_new a = Ok s0 -> mtimed tr -> Forall (fun x => event_ts x / 1000000 <= now) tr ->
    get_proposal_state now (w_m (wrun (winit s0) tr)) id <> Ok StActive.
Proof. exact c50. Qed.
Print Assumptions C50_never_active.
(** without the time hypothesis the state exists *)
Example C50_example :
  get_proposal_state 19 (w_m (wrun mw0 tr_open)) 0 = Ok StActive /\
  get_proposal_state 20 (w_m (wrun mw0 tr_open)) 0 = Ok StVotingProcess /\
  get_proposal_state 1021 (w_m (wrun mw0 tr_open)) 0 = Ok StRejected /\
  get_proposal_state 15 (w_m (wrun mw0 (firstn 3 tr_open))) 0 = Ok StDraft.
Proof. mconj; mvmr. Qed.

(** C51 *)
Theorem C51_content_edits :
  forall w tr x id p p', mreach w tr -> few_proposals (w_m w) ->
    get_proposal (w_m w) id = Ok p -> get_proposal (w_m (wstep w x)) id = Ok p' -> pr_content p' <> pr_content p ->
    exists c ct, x = MCall c (UpdateProposal id ct) /\ c_signer c = pr_creator p /\ pr_content p' = ct /\
      pr_canceled p = false /\ pr_executed p = false /\ (forall d, pr_start p = Some d -> now_ms c <= d).
Proof. exact c51. Qed.
Print Assumptions C51_content_edits.
Example C51_example :
  let w := wrun mw0 (firstn 3 tr_open) in let ct := mkContent "New" "s" "b" "d" "e" in
  get_proposal (w_m (wstep w (mc "alice" 16 (UpdateProposal 0 ct)))) 0 = Ok (mkMpip 0 ct "alice" None None true false false None) /\
  event_ok w (mc "op.near" 16 (UpdateProposal 0 ct)) = false /\
  event_ok (wrun mw0 tr_open) (mc "alice" 21 (UpdateProposal 0 ct)) = false.
Proof. mconj; mvmr. Qed.

(** C52 *)
Theorem C52_creation :
  forall a0 s0 tr x id p,
    mpip_new a0 = Ok s0 -> let w := wrun (winit s0) tr in few_proposals (w_m w) ->
    (forall q, get_proposal (w_m w) id <> Ok q) -> get_proposal (w_m (wstep w x)) id = Ok p ->
    exists i ts t l q ct tr1 c tr2, x = MAnswer i ts (ABytes t (Some l)) /\ w_pend w !! i = Some q /\
      m_min_vp (w_m w) <= locked_sum l /\ id = N.of_nat (n_proposals (w_m w)) /\
      p = mkMpip id ct (c_signer c) None None true false false None /\
      tr = tr1 ++ MCall c (CreateProposal ct) :: tr2 /\
      pd_ask q = AskPositions (c_pred c) /\ pd_contract q = m_meta_vote (w_m (wrun (winit s0) tr1)) /\
      m_open (w_m (wrun (winit s0) tr1)) = true /\ m_storage (w_m (wrun (winit s0) tr1)) <= c_deposit c.
Proof. exact c52. Qed.
Print Assumptions C52_creation.
Theorem C52_refuted :
  ~ (forall a s0 tr i ts an q p id, mpip_new a = Ok s0 ->
       let w := wrun (winit s0) tr in w_pend w !! i = Some q ->
       get_proposal (w_m (wstep w (MAnswer i ts an))) id = Ok p -> n_proposals (w_m w) = 0%nat ->
       pd_ask q = AskPositions (pr_creator p)).
Proof. exact r_c52. Qed.
Print Assumptions C52_refuted.
Example C52_example :
  let w := wrun mw0 [mcreate "alice" 10 "P0"] in
  n_proposals (w_m (wstep w (ans_pos 0 11 [pos 60 true; pos 40 true]))) = 1%nat /\
  n_proposals (w_m (wstep w (ans_pos 0 11 [pos 60 true; pos 40 false]))) = 0%nat /\
  event_ok mw0 (mc "alice" 1 (CreateProposal (mkContent "P" "s" "b" "d" "e"))) = false.
Proof. mconj; mvmr. Qed.
