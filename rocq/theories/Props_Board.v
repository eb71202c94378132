(** Props_Board.v -- C75: what every view of the proposal contract answers, given the board (MpipSpecViews). *)

From Verif Require Import MpipViews MpipRefuted Props_Mpip Props_MpipStep.

(** Proposals, their states, pages and authors. *)
Theorem C75_proposals :
  forall w tr now, mreach w tr -> few_proposals (w_m w) -> proposal_views now (w_m w) (observe w).
Proof. intros w tr now H. exact (proj2 (c75 w tr now H)). Qed.
Print Assumptions C75_proposals.

(** Votes, tallies, quorum and the settings. *)
Theorem C75_votes : forall w tr, mreach w tr -> vote_views (w_m w) (observe w).
Proof. intros w tr H. exact (proj1 (c75 w tr 0 H)). Qed.
Print Assumptions C75_votes.

(** ** Examples *)
Lemma ex_board tr now : (N.of_nat (n_proposals (w_m (wrun mw0 tr))) <? 2 ^ 32) = true ->
  proposal_views now (w_m (wrun mw0 tr)) (observe (wrun mw0 tr)) /\ vote_views (w_m (wrun mw0 tr)) (observe (wrun mw0 tr)).
Proof.
  intros H. split; [apply C75_proposals with tr; [apply reach|apply few_b; exact H]|apply C75_votes with tr; apply reach].
Qed.

(** bob for with 300, carol abstains with 600, quorum 500: in the window until 1020 ms, accepted after it *)
Example C75_example :
  mall_ok mw0 tr_b = true /\ let w := wrun mw0 tr_b in let s := w_m w in
  proposal_views 1021 s (observe w) /\ vote_views s (observe w) /\
  get_proposal_state 20 s 0 = Ok StVotingProcess /\ get_proposal_state 1020 s 0 = Ok StVotingProcess /\
  get_proposal_state 19 s 0 = Ok StActive /\ get_proposal_state 1021 s 0 = Ok StAccepted /\
  get_quorum_reached (mcx "op.near" "op.near" 0 50) s 0 = Ok true /\
  get_proposal_votes s 0 = (300, 0, 600, [("bob", mkMvote 0 VFor 300 "a"); ("carol", mkMvote 0 VAbstain 600 "x")]) /\
  get_my_vote s "bob" 0 = Ok (Some ("bob", mkMvote 0 VFor 300 "a")) /\ get_my_vote s "dan" 0 = Ok None /\
  get_total_voters s = "2".
Proof.
  split; [mvmr|]. cbv zeta.
  match goal with |- ?A /\ ?B /\ ?C => cut ((A /\ B) /\ C); [intros [[h1 h2] h3]; exact (conj h1 (conj h2 h3))|] end.
  split; [apply ex_board; mvmr|]. mconj; mvmr.
Qed.

(** three proposals: pages of two *)
Example C75_example_pages :
  let w := wrun mw0 tr_three in
  proposal_views 12 (w_m w) (observe w) /\
  b_count (observe w) = 3 /\ b_made (observe w) "alice" = [1; 2] /\
  get_last_proposal_id (w_m w) = Ok (Some 2) /\ get_proposals (w_m w) 3 2 = Ok None /\
  match get_proposals (w_m w) 2 2 with Ok (Some l) => map pr_id l = [2] | _ => False end.
Proof. cbv zeta. split; [apply ex_board; mvmr|]. mconj; mvmr. Qed.
