(** Props_Sys.v -- C92: what votes on proposals cost in tokens, in the whole system. *)

From Verif Require Import SysProofs MVWitness MpipRefuted Props_World.

(** The votes of any accounts on a proposal are covered by the mpDAO still in positions of these accounts. *)
Theorem C92_voters_hold_tokens :
  forall y0 tr id T D vs,
    deployed y0 -> Forall (tame D y0) tr -> ytimed tr -> D <= min_unbond (w_mv (y_world y0)) -> recent D T id tr ->
    N.of_nat (length tr) < 2 ^ 64 ->
    let y := yrun y0 tr in
    sum_by (power_cast y id) vs <= 60 * 10 ^ 18 * sum_by (positions_amount (w_mv (y_world y))) vs /\
    (Forall in_bounds tr ->
     60 * sum_by (power_cast y id) vs <= (max_unbond (w_mv (y_world y0)) + 1) * 10 ^ 18 * sum_by (positions_amount (w_mv (y_world y))) vs).
Proof. intros y0 tr id T D vs H0 Ht Hs HD Hr Hn. exact (c92_coalition y0 tr id T D H0 Ht Hs HD Hr Hn vs). Qed.
Print Assumptions C92_voters_hold_tokens.

(** All tallies of a proposal together are covered by the mpDAO that the voting contract holds in the token's ledger. *)
Theorem C92_tallies_need_tokens :
  forall y0 tr id T D,
    deployed y0 -> Forall (tame D y0) tr -> ytimed tr -> D <= min_unbond (w_mv (y_world y0)) -> recent D T id tr ->
    N.of_nat (length tr) < 2 ^ 64 -> one_at_a_time y0 tr ->
    let y := yrun y0 tr in
    all_votes y id <= 60 * 10 ^ 18 * treasury y /\
    (Forall in_bounds tr -> 60 * all_votes y id <= (max_unbond (w_mv (y_world y0)) + 1) * 10 ^ 18 * treasury y).
Proof. intros y0 tr id T D H0 Ht Hs HD Hr Hn H1. exact (c92_treasury y0 tr id T D H0 Ht Hs HD Hr Hn H1). Qed.
Print Assumptions C92_tallies_need_tokens.

(** A proposal is reported as accepted only while tokens worth the configured share of all voting power (the power at a
    moment before its window opened, the share when it opened) are held. *)
Theorem C92_acceptance_needs_tokens :
  forall y0 tr id T D now,
    deployed y0 -> Forall (tame D y0) tr -> ytimed tr -> D <= min_unbond (w_mv (y_world y0)) -> recent D T id tr ->
    N.of_nat (length tr) < 2 ^ 64 -> one_at_a_time y0 tr ->
    let y := yrun y0 tr in
    get_proposal_state now (y_board y) id = Ok StAccepted ->
    exists t1 t2 t3, tr = t1 ++ t2 ++ t3 /\
      get_total_voting_power (w_mv (y_world (yrun y0 t1))) * m_floor (y_board (yrun y0 (t1 ++ t2))) / 10000
        <= 60 * 10 ^ 18 * treasury y.
Proof. intros y0 tr id T D now H0 Ht Hs HD Hr Hn H1. exact (c92_accepted y0 tr id T D H0 Ht Hs HD Hr Hn now H1). Qed.
Print Assumptions C92_acceptance_needs_tokens.

(** ** Examples *)
Definition y0 : system := mkSystem w0 ms0 [].
Lemma y0_deployed : deployed y0.
Proof. exists mia. split; [exact w0_start|]. conj; vmr. Qed.
Definition yc (p : string) (ms : N) (o : mop) : yev := YCall (mcx p p 0 ms) o.
Definition ycreate (p : string) (ms : N) : yev := YCall (mcx p p 5 ms) (CreateProposal (mkContent "P0" "s" "b" "d" "e")).
Definition yq (i : nat) (ms : N) : yev := YQuery i (ms * 1000000) false AFailed.
Definition yb (ms : N) : yev := YBack 0 (ms * 1000000).
(** proposal 0, open from 20 to 1020 ms, with 100 mpDAO of alice (60 days) and 10 of bob (30 days) locked *)
Definition y_open : list yev :=
  map YWorld evs_setup ++ [ ycreate "alice" 10; yq 0 11; yb 12; yc "alice" 15 (StartVoting 0); yq 0 16; yb 20 ].
Definition y_voted : list yev :=
  y_open ++ [ yc "bob" 30 (VoteProposal 0 VAgainst "m"); yc "alice" 31 (VoteProposal 0 VFor "m"); yq 1 32; yq 0 33; yb 34;
              YWorld (umv "bob" 35 (Unlock 0)); yb 36; YWorld (umv "alice" 37 (Unlock 0)) ].

Definition kind_votes (id : N) (v : string) (x : pending * option answer) : bool :=
  match pd_kind x.1 with KVote i u _ _ => (i =? id) && bool_decide (u = v) | _ => false end.
Lemma voting_dec y id v : existsb (kind_votes id v) (y_asks y) = false -> ~ voting y id v.
Proof.
  intros E (p & oa & vt & memo & Hin & Hk). assert (H : existsb (kind_votes id v) (y_asks y) = true); [|congruence].
  apply existsb_exists. exists (p, oa). split; [exact Hin|]. unfold kind_votes. cbn [fst]. rewrite Hk, N.eqb_refl, bool_decide_true by reflexivity. reflexivity.
Qed.
Fixpoint one_check (y : system) (tr : list yev) : bool :=
  match tr with
  | [] => true
  | e :: r => match e with YCall c (VoteProposal id _ _) => negb (existsb (kind_votes id (c_pred c)) (y_asks y)) | _ => true end && one_check (ystep y e) r
  end.
Lemma one_check_ok tr : forall y, one_check y tr = true -> one_at_a_time y tr.
Proof.
  induction tr as [|e tr IH]; intros y H t1 c id vt memo t2 E; [destruct t1; discriminate E|]. cbn [one_check] in H. apply andb_true_iff in H as [H1 H2].
  destruct t1 as [|e' t1]; cbn [app] in E; injection E as -> E.
  - subst. apply voting_dec. apply negb_true_iff. exact H1.
  - apply (IH _ H2 t1 c id vt memo t2 E).
Qed.
Definition tame_check (D : N) (e : yev) : bool :=
  match e with
  | YWorld (EMv (_, SetStnear a)) => negb (String.eqb a "mpdao.near")
  | YWorld (EMv (_, UpdateMinUnbond n)) => D <=? n
  | YWorld (EMv x) => negb (imports x)
  | YCall _ (UpdateMetaVoteAddress a) => String.eqb a "mv.near"
  | _ => true
  end.
Lemma tame_ok D tr : forallb (tame_check D) tr = true -> Forall (tame D y0) tr.
Proof.
  intros H. apply List.Forall_forall. intros e He. rewrite forallb_forall in H. specialize (H e He).
  destruct e as [[[c o]|k x|i c f ans]|c o|i ts f alt|i ts]; try exact I; try (split; [split; exact I|exact I]).
  - destruct o; cbn in H; try discriminate H; try (split; [split; [exact I|reflexivity]|exact I]).
    + split; [split; [|reflexivity]|exact I]. cbn [not_mpdao]. assert (Es : t_self (w_mp (y_world y0)) = "mpdao.near") by vmr. rewrite Es. intros ->. discriminate H.
    + split; [split; [exact I|reflexivity]|]. cbn. apply N.leb_le. exact H.
  - destruct o; try exact I. cbn in *. apply String.eqb_eq in H. exact H.
Qed.
Definition recent_check (D T id : N) (e : yev) : bool :=
  (yev_ts e / 1000000 <=? T) &&
  match e with YCall c (VoteProposal i _ _) => negb (i =? id) || (T <? now_ms c + D * 86400000) | _ => true end.
Lemma recent_ok D T id tr : forallb (recent_check D T id) tr = true -> recent D T id tr.
Proof.
  intros H. rewrite forallb_forall in H. split.
  - apply List.Forall_forall. intros e He. specialize (H e He). apply andb_true_iff in H as [H _]. apply N.leb_le. exact H.
  - intros c vt memo He. specialize (H _ He). apply andb_true_iff in H as [_ H]. rewrite N.eqb_refl in H. cbn [negb orb] in H. apply N.ltb_lt. exact H.
Qed.
Fixpoint sorted_check (l : list N) : bool := match l with a :: ((b :: _) as r) => (a <=? b) && sorted_check r | _ => true end.
Lemma sorted_ok tr : sorted_check (map yev_ts tr) = true -> ytimed tr.
Proof.
  unfold ytimed. induction (map yev_ts tr) as [|t l IH]; intros H; [constructor|]. destruct l as [|u l]; [repeat constructor|].
  cbn [sorted_check] in H. apply andb_true_iff in H as [H1 H2]. constructor; [exact (IH H2)|]. constructor. apply N.leb_le. exact H1.
Qed.

Example C92_example :
  deployed y0 /\ Forall (tame 30 y0) y_voted /\ ytimed y_voted /\ 30 <= min_unbond (w_mv (y_world y0)) /\ recent 30 1021 0 y_voted /\
  one_at_a_time y0 y_voted /\
  (let y := yrun y0 y_voted in
   power_cast y 0 "alice" = V 100 /\ power_cast y 0 "bob" = V 5 /\ all_votes y 0 = V 105 /\ treasury y = M 110 /\
   get_total_voting_power (w_mv (y_world y)) = 0 /\ positions_amount (w_mv (y_world y)) "bob" = M 10 /\
   get_proposal_state 1021 (y_board y) 0 = Ok StAccepted).
Proof.
  split; [exact y0_deployed|]. split; [apply tame_ok; vmr|]. split; [apply sorted_ok; vmr|]. split; [vm_compute; discriminate|].
  split; [apply recent_ok; vmr|]. split; [apply one_check_ok; vmr|]. conj; vmr.
Qed.

(** Voting again while an own vote is still being counted breaks both: bob, with less than a twentieth of the voting power,
    passes a proposal alone, although a tenth of it is required ... *)
Definition y_thrice : list yev :=
  y_open ++ repeat (yc "bob" 30 (VoteProposal 0 VFor "m")) 3 ++ [yq 0 31; yq 1 31; yq 2 31] ++ repeat (yb 32) 3.
Theorem C92_quorum_recorded_refuted :
  ~ (forall y0 tr id T D now p q,
       deployed y0 -> Forall (tame D y0) tr -> ytimed tr -> D <= min_unbond (w_mv (y_world y0)) -> recent D T id tr ->
       N.of_nat (length tr) < 2 ^ 64 ->
       let y := yrun y0 tr in
       get_proposal_state now (y_board y) id = Ok StAccepted -> get_proposal (y_board y) id = Ok p -> pr_quorum p = Some q ->
       q <= sum_by (fun j : vote_json => vt_power j.2) (listed (y_board y) id)).
Proof.
  intros H.
  assert (E : exists p, get_proposal (y_board (yrun y0 y_thrice)) 0 = Ok p /\ pr_quorum p = Some (V 105 / 10)).
  { destruct (get_proposal (y_board (yrun y0 y_thrice)) 0) as [p|] eqn:E; [|vm_compute in E; discriminate E]. exists p. split; [reflexivity|].
    vm_compute in E. injection E as <-. vmr. }
  destruct E as (p & Ep & Eq).
  specialize (H y0 y_thrice 0 1021 30 1021 p (V 105 / 10) y0_deployed ltac:(apply tame_ok; vmr) ltac:(apply sorted_ok; vmr) ltac:(vm_compute; discriminate)
    ltac:(apply recent_ok; vmr) ltac:(vm_compute; reflexivity) ltac:(vmr) Ep Eq).
  assert (E2 : sum_by (fun j : vote_json => vt_power j.2) (listed (y_board (yrun y0 y_thrice)) 0) = V 5) by vmr.
  rewrite E2 in H. vm_compute in H. apply H. reflexivity.
Qed.
Print Assumptions C92_quorum_recorded_refuted.
(** ... and the tallies exceed any bound by the tokens held. *)
Definition y_many : list yev :=
  y_open ++ repeat (yc "alice" 30 (VoteProposal 0 VFor "m")) 70 ++ map (fun i => yq i 31) (seq 0 70) ++ repeat (yb 32) 70.
Theorem C92_tallies_refuted :
  ~ (forall y0 tr id T D,
       deployed y0 -> Forall (tame D y0) tr -> ytimed tr -> D <= min_unbond (w_mv (y_world y0)) -> recent D T id tr ->
       N.of_nat (length tr) < 2 ^ 64 -> all_votes (yrun y0 tr) id <= 60 * 10 ^ 18 * treasury (yrun y0 tr)).
Proof.
  intros H. specialize (H y0 y_many 0 1021 30 y0_deployed ltac:(apply tame_ok; vmr) ltac:(apply sorted_ok; vmr) ltac:(vm_compute; discriminate)
    ltac:(apply recent_ok; vmr) ltac:(vm_compute; reflexivity)).
  assert (E : (all_votes (yrun y0 y_many) 0 <=? 60 * 10 ^ 18 * treasury (yrun y0 y_many)) = false) by vmr.
  apply N.leb_gt in E. lia.
Qed.
Print Assumptions C92_tallies_refuted.
