(** Props_Gov.v -- C65, C66: the proposal contract together with the voting contract. *)

From Verif Require Import GovProofs MVWitness MpipRefuted.

(** * C65. Every recorded vote was cast by its voter in the proposal's window, and weighs what the
    voter's locked positions weighed in the voting contract at one moment after the call. *)
Theorem C65_vote_power :
  forall a b g0 tr v id u,
    linked a b g0 tr -> get_my_vote (g_m (grun g0 tr)) v id = Ok (Some (v, u)) ->
    exists t1 c t2 i ts alt t3 q,
      tr = t1 ++ GCall c (VoteProposal id (vt_type u) (vt_memo u)) :: t2 ++ GQuery i ts false alt :: t3 /\
      c_pred c = v /\ get_proposal (g_m (grun g0 t1)) id = Ok q /\ in_window (now_ms c) q /\
      vt_power u = locked_power (g_mv (grun g0 (t1 ++ GCall c (VoteProposal id (vt_type u) (vt_memo u)) :: t2))) v.
Proof. exact c65_vote. Qed.
Print Assumptions C65_vote_power.
(** The quorum of a proposal is the configured share, when its window opened, of the total voting power
    at one moment between the start call and that opening. *)
Theorem C65_quorum :
  forall a b g0 tr id p q,
    linked a b g0 tr -> get_proposal (g_m (grun g0 tr)) id = Ok p -> pr_quorum p = Some q ->
    exists t1 c t2 i ts alt t3 j tb t4,
      tr = t1 ++ GCall c (StartVoting id) :: t2 ++ GQuery i ts false alt :: t3 ++ GBack j tb :: t4 /\
      pr_start p = Some (tb / 1000000) /\
      q = get_total_voting_power (g_mv (grun g0 (t1 ++ GCall c (StartVoting id) :: t2)))
          * m_floor (g_m (grun g0 (t1 ++ GCall c (StartVoting id) :: t2 ++ GQuery i ts false alt :: t3))) / 10000.
Proof. exact c65_quorum. Qed.
Print Assumptions C65_quorum.
(** Whoever created a proposal had the required power locked at one moment between call and creation. *)
Theorem C65_creation :
  forall a b g0 tr id p,
    linked a b g0 tr -> get_proposal (g_m (grun g0 tr)) id = Ok p ->
    exists t1 c ct t2 i ts alt t3 j tb t4,
      tr = t1 ++ GCall c (CreateProposal ct) :: t2 ++ GQuery i ts false alt :: t3 ++ GBack j tb :: t4 /\
      c_signer c = pr_creator p /\
      m_min_vp (g_m (grun g0 (t1 ++ GCall c (CreateProposal ct) :: t2 ++ GQuery i ts false alt :: t3)))
        <= locked_power (g_mv (grun g0 (t1 ++ GCall c (CreateProposal ct) :: t2))) (c_pred c).
Proof. exact c65_create. Qed.
Print Assumptions C65_creation.

Definition gv (x : call) : gev := GVote x.
Definition gc (p : string) (ms : N) (o : mop) : gev := GCall (mcx p p 0 ms) o.
Definition gcreate (p : string) (ms : N) (t : string) : gev := GCall (mcx p p 5 ms) (CreateProposal (mkContent t "s" "b" "d" "e")).
Definition gq (ms : N) : gev := GQuery 0 (ms * 1000000) false AFailed.
Definition gb (ms : N) : gev := GBack 0 (ms * 1000000).
Definition gw0 : gov := ginit s0 ms0.
Lemma linked_tac_ok (b : minit) (m0 : mstate) tr : mpip_new b = Ok m0 -> mi_vote b = "mv.near" ->
  Forall (keeps_link "mv.near") tr -> linked ia b (ginit s0 m0) tr.
Proof. intros H1 H2 H3. exists s0, m0. split; [exact s0_ok|]. split; [exact H1|]. split; [reflexivity|]. split; [exact H2|exact H3]. Qed.
Ltac linked_tac := apply linked_tac_ok; [reflexivity|reflexivity|repeat (apply List.Forall_cons; [exact I|]); apply List.Forall_nil].
Ltac gtimed_tac := unfold gtimed; cbn [map]; repeat constructor; vm_compute; discriminate.

(** proposal 0 by a.near, open from 20 to 1020 ms *)
Definition g_open : list gev :=
  [ gv (dep "a.near" 100 "60" 1); gv (dep "b.near" 70 "90" 2);
    gcreate "a.near" 10 "P0"; gq 11; gb 12;
    gc "a.near" 15 (StartVoting 0); gq 16; gb 20 ].
(** b.near deposits more between its vote and the query *)
Definition g_votes : list gev :=
  g_open ++ [ gc "b.near" 30 (VoteProposal 0 VFor "m"); gv (dep "b.near" 20 "60" 31); gq 32; gv (dep "b.near" 50 "60" 33); gb 34 ].
Example C65_example :
  linked ia mia gw0 g_votes /\ gtimed g_votes /\
  get_my_vote (g_m (grun gw0 g_votes)) "b.near" 0 = Ok (Some ("b.near", mkMvote 0 VFor (V 125) "m")) /\
  (exists p, get_proposal (g_m (grun gw0 g_votes)) 0 = Ok p /\ pr_quorum p = Some (V 205 / 10) /\ pr_start p = Some 20) /\
  get_total_voting_power (g_mv (grun gw0 g_votes)) = V 275.
Proof.
  mconj; [linked_tac|gtimed_tac|mvmr| |mvmr].
  assert (E : exists p, get_proposal (g_m (grun gw0 g_votes)) 0 = Ok p).
  { destruct (get_proposal (g_m (grun gw0 g_votes)) 0) eqn:E; [eauto|]. vm_compute in E. discriminate E. }
  destruct E as (p & E). exists p. vm_compute in E. injection E as <-. mconj; mvmr.
Qed.

(** The recorded power is not bounded by the voting power there is: a voter may unlock after voting. *)
Definition g_leave : list gev := g_votes ++ [ gv (usr "b.near" 40 (Unlock 0)); gv (usr "b.near" 40 (Unlock 1)); gv (usr "a.near" 41 (Unlock 0)) ].
Theorem C65_within_current_power_refuted :
  ~ (forall a b g0 tr id t, linked a b g0 tr -> gtimed tr ->
       recorded (g_m (grun g0 tr)) id t <= get_total_voting_power (g_mv (grun g0 tr))).
Proof.
  intros H. assert (HL : linked ia mia gw0 g_leave) by linked_tac. assert (Ht : gtimed g_leave) by gtimed_tac.
  specialize (H ia mia gw0 g_leave 0 VFor HL Ht).
  assert (E1 : recorded (g_m (grun gw0 g_leave)) 0 VFor = V 125) by mvmr.
  assert (E2 : get_total_voting_power (g_mv (grun gw0 g_leave)) = 0) by mvmr.
  rewrite E1, E2 in H. apply N.le_0_r in H. discriminate H.
Qed.
Print Assumptions C65_within_current_power_refuted.

(** * C66. As long as fewer than [D] days passed since the votes on a proposal were cast, [D] being a lower
    bound of all unbonding periods, no token backs two of them: the tokens behind each vote are still in
    positions of the voter, and together they are no more than all positions hold. *)
Theorem C66_no_token_votes_twice :
  forall a b g0 tr id T D,
    linked a b g0 tr -> gtimed tr -> Forall (fun x => gev_ts x / 1000000 <= T) tr ->
    D <= i_min_unbond a -> Forall (periods_at_least D) tr ->
    (forall c vt memo, In (GCall c (VoteProposal id vt memo)) tr -> T < now_ms c + D * 86400000) ->
    let g := grun g0 tr in
    (forall v u, In (v, u) (listed (g_m g) id) -> Forall (not_mirrored v) tr) ->
    exists back : string -> N,
      (forall v u, In (v, u) (listed (g_m g) id) -> exists t1 t2, tr = t1 ++ t2 /\
         vt_power u = locked_power (g_mv (grun g0 t1)) v /\ back v = locked_amount (g_mv (grun g0 t1)) v /\
         back v <= positions_amount (g_mv g) v) /\
      sum_by (fun j => back j.1) (listed (g_m g) id) <= sum_by (positions_amount (g_mv g)) (voter_ids (g_mv g)).
Proof. exact c66. Qed.
Print Assumptions C66_no_token_votes_twice.
Example C66_example :
  let tr := g_leave in let T := 1020 in
  linked ia mia gw0 tr /\ gtimed tr /\ Forall (fun x => gev_ts x / 1000000 <= T) tr /\
  Forall (periods_at_least 30) tr /\ (30 <= i_min_unbond ia) /\ T < 30 + 30 * 86400000 /\
  map fst (listed (g_m (grun gw0 tr)) 0) = ["b.near"] /\ Forall (not_mirrored "b.near") tr /\
  locked_amount (g_mv (grun gw0 tr)) "b.near" = 0 /\ positions_amount (g_mv (grun gw0 tr)) "b.near" = M 140.
Proof.
  mconj; [linked_tac|assert (Ht : gtimed g_leave) by gtimed_tac; exact Ht| | |vm_compute; discriminate|mvmr|mvmr| |mvmr|mvmr].
  all: repeat (apply List.Forall_cons; [first [exact I|vm_compute; discriminate]|]); apply List.Forall_nil.
Qed.

(** Nothing ties the voting period to the unbonding periods.  With a longer voting period the same tokens vote
    twice, and the recorded power exceeds every total voting power there ever was. *)
Definition mia40 : minit := mkMinit "mpip.near" "adm.near" "op.near" "meta.near" "mv.near" (40 * DAY) 100 5 1000.
Definition ms40 : mstate := match mpip_new mia40 with Ok s => s | Panic _ => ms0 end.
Definition g_twice : list gev :=
  [ gv (dep "a.near" 100 "30" 1);
    gcreate "a.near" 10 "P0"; gq 11; gb 12; gc "a.near" 15 (StartVoting 0); gq 16; gb 20;
    gc "a.near" 30 (VoteProposal 0 VFor "m"); gq 31; gb 32;
    gv (usr "a.near" 40 (Unlock 0)); gv (usr1 "a.near" (30 * DAY + 50) WithdrawAll);
    gv (dep "c.near" 100 "30" (30 * DAY + 60));
    gc "c.near" (30 * DAY + 70) (VoteProposal 0 VFor "m"); gq (30 * DAY + 71); gb (30 * DAY + 72) ].
Theorem C66_any_voting_period_refuted :
  ~ (forall a b g0 tr id t P, linked a b g0 tr -> gtimed tr ->
       (forall t1 t2, tr = t1 ++ t2 -> get_total_voting_power (g_mv (grun g0 t1)) <= P) ->
       recorded (g_m (grun g0 tr)) id t <= P).
Proof.
  intros H. assert (HL : linked ia mia40 (ginit s0 ms40) g_twice) by linked_tac. assert (Ht : gtimed g_twice) by gtimed_tac.
  specialize (H ia mia40 (ginit s0 ms40) g_twice 0 VFor (V 50) HL Ht).
  assert (E1 : recorded (g_m (grun (ginit s0 ms40) g_twice)) 0 VFor = V 100) by mvmr.
  assert (E2 : forallb (fun k => get_total_voting_power (g_mv (grun (ginit s0 ms40) (firstn k g_twice))) <=? V 50)
                 (seq 0 (S (length g_twice))) = true) by mvmr.
  rewrite E1 in H. specialize (fun X => H X eq_refl). apply H.
  intros t1 t2 E. rewrite forallb_forall in E2. specialize (E2 (length t1)).
  assert (Ek : firstn (length t1) g_twice = t1) by (rewrite E, take_app; reflexivity).
  rewrite Ek in E2. apply N.leb_le, E2, in_seq. rewrite E, app_length. lia.
Qed.
Print Assumptions C66_any_voting_period_refuted.
