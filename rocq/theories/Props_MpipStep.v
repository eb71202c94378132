(** Props_MpipStep.v -- C73: every call and every answer changes what the proposal contract shows exactly as
    specified. *)

From Verif Require Import MpipStep2 MpipRefuted.

(** C73: MpipSpecStep.v specifies the contract as a board: [moves B x M] says that [M] may follow [B] upon the event
    [x], be it a call or an answer to a question asked.  Whatever happens, the board moves so. *)
Theorem C73_step :
  forall w tr x, mreach w tr -> few_proposals (w_m (wstep w x)) -> moves (observe w) x (observe (wstep w x)).
Proof. exact c73_step. Qed.
Print Assumptions C73_step.

(** A call succeeds exactly when the board allows it, and asks or pays what is specified. *)
Theorem C73_result :
  forall w tr c o, mreach w tr -> few_proposals (w_m w) ->
    ((exists r, mcall c (w_m w) o = Ok r) <-> may c (observe w) o) /\
    forall s' out, mcall c (w_m w) o = Ok (s', out) -> out = asks c (observe w) o.
Proof. exact c73_result. Qed.
Print Assumptions C73_result.

Theorem C73_init :
  forall a, ((exists s, mpip_new a = Ok s) <-> mi_floor a <= 10000) /\
    forall s, mpip_new a = Ok s -> same (observe (winit s)) (new_board a).
Proof. exact c73_init. Qed.
Print Assumptions C73_init.

(** The specification leaves no choice: from the same board the same event leads to the same board. *)
Theorem C73_determined :
  forall B C x M M', same B C -> moves B x M -> moves C x M' -> same M M'.
Proof. exact moves_fun. Qed.
Print Assumptions C73_determined.

(** No hidden state: two contracts showing the same board, of whatever histories, show the same after any further
    history. *)
Theorem C73_no_hidden_state :
  forall tr w1 tr1 w2 tr2,
    mreach w1 tr1 -> mreach w2 tr2 -> same (observe w1) (observe w2) ->
    few_proposals (w_m (wrun w1 tr)) -> few_proposals (w_m (wrun w2 tr)) -> same (observe (wrun w1 tr)) (observe (wrun w2 tr)).
Proof. exact c73_views. Qed.
Print Assumptions C73_no_hidden_state.

(** ** Examples *)
Lemma reach tr : mreach (wrun mw0 tr) tr.
Proof. exists mia, ms0. split; [exact ms0_ok|reflexivity]. Qed.
Lemma few_b s : (N.of_nat (n_proposals s) <? 2 ^ 32) = true -> few_proposals s.
Proof. intros H. apply N.ltb_lt in H. exact H. Qed.

Lemma ex_moves tr x : (N.of_nat (n_proposals (w_m (wstep (wrun mw0 tr) x))) <? 2 ^ 32) = true ->
  moves (observe (wrun mw0 tr)) x (observe (wstep (wrun mw0 tr) x)).
Proof. intros H. apply C73_step with tr; [apply reach|apply few_b; exact H]. Qed.
Lemma ex_refused tr c o : (N.of_nat (n_proposals (w_m (wrun mw0 tr))) <? 2 ^ 32) = true ->
  event_ok (wrun mw0 tr) (MCall c o) = false -> ~ may c (observe (wrun mw0 tr)) o.
Proof.
  intros Hf E H. apply (proj1 (C73_result _ tr c o (reach tr) (few_b _ Hf))) in H as [r H]. unfold event_ok in E. rewrite H in E. discriminate E.
Qed.

(** bob votes for with 300 and carol abstains with 600; the operator closes it in the last millisecond *)
Definition tr_b : list mevent :=
  tr_open ++ [ mc "bob" 30 (VoteProposal 0 VFor "a"); ans_pos 0 32 [pos 300 true; pos 5 false];
               mc "carol" 40 (VoteProposal 0 VAbstain "x"); ans_pos 0 42 [pos 600 true] ].
Definition x_close : mevent := mc "op.near" 1020 (ProcessVotingStatus 0).
Example C73_example :
  mall_ok mw0 (tr_b ++ [x_close]) = true /\
  let w := wrun mw0 tr_b in
  moves (observe w) x_close (observe (wstep w x_close)) /\
  b_tally (observe w) 0 VFor = 300 /\ turnout (observe w) 0 = 900 /\
  b_ballot (observe w) 0 "bob" = Some (mkMvote 0 VFor 300 "a") /\
  b_prop (observe (wstep w x_close)) 0 =
    Some (mkMpip 0 (mkContent "P0" "s" "b" "d" "e") "alice" (Some 20) (Some 1020) false true false (Some 500)).
Proof.
  split; [mvmr|]. cbv zeta. split; [apply ex_moves; mvmr|]. split; [mvmr|split; [mvmr|split; mvmr]].
Qed.

(** not allowed: the same call by bob *)
Example C73_example_refused :
  ~ may (mcx "bob" "bob" 0 1020) (observe (wrun mw0 tr_b)) (ProcessVotingStatus 0).
Proof. apply ex_refused; mvmr. Qed.

(** a vote counted and removed leaves the board as it was *)
Definition tr_back : list mevent :=
  tr_open ++ [ mc "bob" 30 (VoteProposal 0 VFor "a"); ans_pos 0 32 [pos 300 true]; mc "bob" 33 (RemoveVoteProposal 0) ].
Example C73_example_same :
  mall_ok mw0 tr_back = true /\ same (observe (wrun mw0 tr_back)) (observe (wrun mw0 tr_open)).
Proof.
  split; [mvmr|]. set (w1 := wrun mw0 tr_back). set (w2 := wrun mw0 tr_open).
  assert (E1 : m_votes (w_m w1) = [(0, mkPvote 0 0 0 [])]) by mvmr. assert (E2 : m_votes (w_m w2) = []) by mvmr.
  assert (E3 : m_proposals (w_m w1) = m_proposals (w_m w2)) by mvmr.
  assert (E4 : m_proposers (w_m w1) = m_proposers (w_m w2)) by mvmr.
  assert (Ep : forall id, get_pvote (w_m w1) id = get_pvote (w_m w2) id).
  { intros id. unfold get_pvote. rewrite E1, E2. cbn [om_get]. destruct (decide _); reflexivity. }
  apply same_obs.
  - apply few_b. mvmr.
  - apply (VI_reach _ _ (reach tr_back)).
  - mvmr.
  - mvmr.
  - mvmr.
  - intros id. rewrite E3. symmetry. apply obs_prop.
  - intros a. unfold get_proposer. rewrite E4. reflexivity.
  - intros id t. rewrite Ep. symmetry. apply obs_tally.
  - intros id v. rewrite Ep. symmetry. apply obs_ballot. apply (VI_reach _ _ (reach tr_open)).
Qed.
