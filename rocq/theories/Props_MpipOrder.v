(** Props_MpipOrder.v -- C95: voters do not influence each other's votes, and the order in which the votes of different
    voters arrive changes nothing. *)

From Verif Require Import MpipOrder MpipRefuted.

(** C95: take any sequence of votes, removals of votes and answers to the questions about votes, on any proposals.
    The recorded votes of a voter, the voter's waiting questions and the answers to the voter's calls are those of the
    voter's own events alone: what others did could have been left out. *)
Theorem C95_private :
  forall w tr l v, mreach w tr -> few_proposals (w_m w) -> room (observe w) l ->
    let B := observe (brun w l) in
    let C := observe (brun w (own v l)) in
    (forall id, b_ballot B id v = b_ballot C id v) /\ waiting v B = waiting v C /\ replies v w l = replies v w (own v l).
Proof. exact c95_private. Qed.
Print Assumptions C95_private.

(** Two sequences that hold the same events of every voter in the same order, however interleaved, lead to the same board
    (tallies included, but for the order of waiting questions of different voters), and every call gets the same answer. *)
Theorem C95_reorder :
  forall w tr l l', mreach w tr -> few_proposals (w_m w) -> room (observe w) l -> (forall v, own v l = own v l') ->
    alike (observe (brun w l)) (observe (brun w l')) /\ forall v, replies v w l = replies v w l'.
Proof. exact c95_reorder. Qed.
Print Assumptions C95_reorder.

(** So every proposal is reported in the same state at any time: accepted in both or in neither. *)
Theorem C95_outcome :
  forall w tr l l' now id, mreach w tr -> few_proposals (w_m w) -> room (observe w) l -> (forall v, own v l = own v l') ->
    get_proposal_state now (w_m (brun w l)) id = get_proposal_state now (w_m (brun w l')) id.
Proof. exact c95_state. Qed.
Print Assumptions C95_outcome.

(** ** Examples *)
Lemma reach tr : mreach (wrun mw0 tr) tr.
Proof. exists mia, ms0. split; [exact ms0_ok|reflexivity]. Qed.
Definition vote (v : string) (ms id : N) (t : vote_type) : bev := BVote (mcx v v 0 ms) id t "".
Definition unvote (v : string) (ms id : N) : bev := BRemove (mcx v v 0 ms) id.
Definition count (v : string) (k : nat) (ms n : N) : bev := BCounted v k (ms * 1000000) (ABytes None (Some [pos n true; pos 9 false])).
Definition w1 : world := wrun mw0 tr_open.

(** bob votes for, takes it back and votes against; carol abstains and cannot vote again; dave's answer fails *)
Definition l_mixed : list bev :=
  [ vote "bob" 30 0 VFor; vote "carol" 30 0 VAbstain; count "carol" 0 31 600; count "bob" 0 32 300; vote "dave" 33 0 VFor;
    vote "carol" 34 0 VFor; unvote "bob" 35 0; vote "erin" 36 0 VFor; vote "bob" 37 0 VAgainst; BCounted "dave" 0 1 AFailed;
    count "erin" 0 38 200; count "bob" 0 39 100; count "dave" 0 40 7 ].
(** one voter after the other, last first *)
Definition l_sorted : list bev :=
  own "erin" l_mixed ++ own "dave" l_mixed ++ own "carol" l_mixed ++ own "bob" l_mixed.

Lemma own_none v names l : forallb (fun e => existsb (String.eqb (actor e)) names) l = true -> ~ In v names -> own v l = [].
Proof.
  intros H N. apply own_others. apply List.Forall_forall. intros e He E. pose proof (proj1 (forallb_forall _ _) H e He) as Hb.
  apply existsb_exists in Hb as (x & Hx & Hb). apply String.eqb_eq in Hb. apply N. rewrite <- E, Hb. exact Hx.
Qed.
Lemma mixed_own v : own v l_mixed = own v l_sorted.
Proof.
  destruct (decide (v = "bob")) as [->|N1]; [mvmr|]. destruct (decide (v = "carol")) as [->|N2]; [mvmr|].
  destruct (decide (v = "dave")) as [->|N3]; [mvmr|]. destruct (decide (v = "erin")) as [->|N4]; [mvmr|].
  rewrite !(own_none v ["bob"; "carol"; "dave"; "erin"]); [reflexivity| | | |]; try mvmr; cbn; intuition congruence.
Qed.
Lemma w1_room l : sum_by said l <? 2 ^ 127 = true -> room (observe w1) l.
Proof.
  intros H id t. apply N.ltb_lt in H. assert (E : b_tally (observe w1) id t = 0).
  { change (tally (w_m w1) id t = 0). unfold tally, get_proposal_votes, get_pvote.
    assert (Em : m_votes (w_m w1) = []) by mvmr. rewrite Em. destruct t; reflexivity. }
  rewrite E. revert H. generalize (sum_by said l). intros n H. assert (2 ^ 127 < 2 ^ 128) by mvmr. lia.
Qed.

Example C95_example :
  mreach w1 tr_open /\ few_proposals (w_m w1) /\ room (observe w1) l_mixed /\ (forall v, own v l_mixed = own v l_sorted) /\
  l_mixed <> l_sorted /\
  map (tally (w_m (brun w1 l_mixed)) 0) [VFor; VAgainst; VAbstain] = [200; 100; 600] /\
  map (tally (w_m (brun w1 l_sorted)) 0) [VFor; VAgainst; VAbstain] = [200; 100; 600] /\
  replies "carol" w1 l_mixed = [true; false] /\ replies "bob" w1 l_sorted = [true; true; true] /\
  get_proposal_state 1021 (w_m (brun w1 l_mixed)) 0 = Ok StAccepted /\
  get_proposal_state 1021 (w_m (brun w1 l_sorted)) 0 = Ok StAccepted.
Proof.
  mconj; [apply reach|mvmr|apply w1_room; mvmr|apply mixed_own| |mvmr..]. intros E. apply (f_equal (map actor)) in E.
  vm_compute in E. discriminate E.
Qed.

(** The proviso that all power fits a u128 is needed: with answers of 2^128 - 1 and 1 the second one counted is lost. *)
Definition l_big : list bev :=
  [ vote "bob" 30 0 VFor; vote "carol" 30 0 VFor; count "bob" 0 31 1; count "carol" 0 32 (2 ^ 128 - 1) ].
Definition l_big' : list bev :=
  [ vote "bob" 30 0 VFor; vote "carol" 30 0 VFor; count "carol" 0 32 (2 ^ 128 - 1); count "bob" 0 31 1 ].
Theorem C95_any_power_refuted :
  ~ (forall w tr l l', mreach w tr -> few_proposals (w_m w) -> (forall v, own v l = own v l') ->
       alike (observe (brun w l)) (observe (brun w l'))).
Proof.
  intros H. destruct (H w1 tr_open l_big l_big' (reach tr_open)) as (_ & _ & _ & T & _).
  - mvmr.
  - intros v. destruct (decide (v = "bob")) as [->|N1]; [mvmr|]. destruct (decide (v = "carol")) as [->|N2]; [mvmr|].
    rewrite !(own_none v ["bob"; "carol"]); [reflexivity| | | |]; try mvmr; cbn; intuition congruence.
  - specialize (T 0 VFor). revert T. change (tally (w_m (brun w1 l_big)) 0 VFor <> tally (w_m (brun w1 l_big')) 0 VFor).
    assert (E1 : tally (w_m (brun w1 l_big)) 0 VFor = 1) by mvmr.
    assert (E2 : tally (w_m (brun w1 l_big')) 0 VFor = 2 ^ 128 - 1) by mvmr. rewrite E1, E2. discriminate.
Qed.
Print Assumptions C95_any_power_refuted.
