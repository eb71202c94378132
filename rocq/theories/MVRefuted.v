(** MVRefuted.v -- claims about the meta-vote contract that are false of the code, with
    concrete histories in which every call succeeds. *)

From Verif Require Export MVWitness MVInv MVSpecVote MVSpecMoney.

Ltac cf_tac := apply collision_free_voter; intros p Hp; vm_compute in Hp;
  repeat (destruct Hp as [<-|Hp]; [reflexivity|]); destruct Hp.

(** C01/C02/C21: "a.near" voting on "x.near-foo" and "a.near-x.near" voting on "foo" share one
    storage prefix. *)
Definition tr_coll : list call :=
  [ dep "a.near" 100 "60" 1; dep "a.near-x.near" 100 "60" 1; dep "c.near" 1000 "60" 1;
    usr "c.near" 2 (Vote (V 100) "x.near-foo" "o1");
    usr "a.near" 2 (Vote (V 10) "x.near-foo" "o1");
    usr "a.near-x.near" 2 (Vote (V 100) "foo" "o2");
    usr "a.near" 3 (Unvote "x.near-foo" "o1") ].

Lemma tr_coll_ok : all_ok s0 tr_coll = true /\ timed tr_coll.
Proof. split; [vm_compute; reflexivity|timed_tac]. Qed.

Lemma r_c01 : ~ (forall a s tr, mv_new a = Ok s -> timed tr -> votes_backed (run s tr)).
Proof.
  intros H. specialize (H ia s0 tr_coll s0_ok (proj2 tr_coll_ok)).
  destruct (H "a.near") as (u & _ & Hle). revert Hle.
  assert (get_available_voting_power (run s0 tr_coll) "a.near" = V 190) as -> by (vm_compute; reflexivity).
  assert (locked_power (run s0 tr_coll) "a.near" = V 100) as -> by (vm_compute; reflexivity).
  unfold V. lia.
Qed.

Lemma r_c02 : ~ (forall a s tr, mv_new a = Ok s -> timed tr -> total_is_sum (run s tr)).
Proof.
  intros H. specialize (H ia s0 tr_coll s0_ok (proj2 tr_coll_ok)).
  destruct H as [_ H]. revert H. vm_compute. discriminate.
Qed.

(** C03: a zero-power vote survives the voter's removal as a stale index record. *)
Definition tr_stale : list call :=
  [ dep "a.near" 100 "60" 1; dep "b.near" 100 "60" 1;
    usr "a.near" 1 (Vote 0 "A" "o");
    usr "a.near" 1 (Unlock 0);
    usr "b.near" 2 (Vote (V 50) "B" "o");
    usr1 "a.near" 5184000002 WithdrawAll;
    dep "a.near" 100 "60" 6000000000;
    usr "a.near" 6000000001 (Vote (V 1) "B" "o");
    usr "a.near" 6000000001 (Vote (V 20) "A" "o");
    usr "a.near" 6000000001 (Unvote "B" "o") ].

Lemma tr_stale_ok : all_ok s0 tr_stale = true /\ timed tr_stale /\ collision_free tr_stale.
Proof.
  split; [vm_compute; reflexivity|]. split; [timed_tac|]. cf_tac.
Qed.

(** even without prefix collisions the tally is wrong: B has one voter with 50, tally 30;
    A has no voter, tally 20 *)
Lemma r_c03 :
  ~ (forall a s tr, mv_new a = Ok s -> timed tr -> collision_free tr -> tallies_match (run s tr)).
Proof.
  intros H. destruct tr_stale_ok as (_ & Ht & Hc). specialize (H ia s0 tr_stale s0_ok Ht Hc).
  destruct (H "B" "o") as [_ E]. revert E. vm_compute. discriminate.
Qed.

(** C03 also fails without zero votes when names collide. *)
Lemma r_c03_collision :
  ~ (forall a s tr, mv_new a = Ok s -> timed tr -> no_zero_votes tr -> tallies_match (run s tr)).
Proof.
  intros H. destruct tr_coll_ok as (_ & Ht).
  assert (Hz : no_zero_votes tr_coll).
  { unfold no_zero_votes, tr_coll. repeat constructor; cbn; vm_compute; discriminate. }
  specialize (H ia s0 tr_coll s0_ok Ht Hz).
  destruct (H "x.near-foo" "o1") as [_ E]. revert E. vm_compute. discriminate.
Qed.

(** C04: unlocking a position twice takes its power twice. *)
Definition tr_reunlock : list call :=
  [ dep "a.near" 100 "60" 1; dep "a.near" 100 "90" 1;
    usr "a.near" 2 (Unlock 0); usr "a.near" 3 (Unlock 0) ].

Lemma r_c04 :
  ~ (forall a s tr, mv_new a = Ok s -> timed tr -> collision_free tr -> power_accounted (run s tr)).
Proof.
  intros H. assert (Ht : timed tr_reunlock) by timed_tac.
  assert (Hc : collision_free tr_reunlock) by (intros p q []).
  destruct (H ia s0 tr_reunlock s0_ok Ht Hc "a.near") as (u & Hu & E).
  vm_compute in Hu. injection Hu as <-. revert E. vm_compute. discriminate.
Qed.
Lemma tr_reunlock_ok : all_ok s0 tr_reunlock = true.
Proof. vm_compute. reflexivity. Qed.

(** C13: max_voting_positions + 1 addresses *)
Definition tr_vps : list call :=
  [ dep "a.near" 100 "60" 1;
    usr "a.near" 2 (Vote (V 1) "A" "o"); usr "a.near" 2 (Vote (V 1) "B" "o");
    usr "a.near" 2 (Vote (V 1) "C" "o"); usr "a.near" 2 (Vote (V 1) "D" "o") ].
Lemma r_c13 :
  ~ (forall a s tr, mv_new a = Ok s -> timed tr -> collision_free tr -> no_zero_votes tr ->
       addresses_bounded 0 (run s tr)).
Proof.
  intros H. assert (Ht : timed tr_vps) by timed_tac.
  assert (Hc : collision_free tr_vps) by cf_tac.
  assert (Hz : no_zero_votes tr_vps).
  { unfold no_zero_votes, tr_vps. repeat constructor; cbn; vm_compute; discriminate. }
  specialize (H ia s0 tr_vps s0_ok Ht Hc Hz 0 "a.near"). 
  destruct (get_voter_info 0 (run s0 tr_vps) "a.near") as [j|] eqn:E; [|vm_compute in E; discriminate].
  specialize (H j eq_refl). vm_compute in E. injection E as <-. revert H. vm_compute. intros H. apply H. reflexivity.
Qed.

(** C14: extending the 30-day position to 60 days next to an existing 60-day one *)
Definition tr_ext : list call :=
  [ dep "a.near" 100 "30" 1; dep "a.near" 100 "60" 1; usr "a.near" 2 (ExtendDays 0 60) ].
Lemma tr_ext_ok : all_ok s0 tr_ext = true.
Proof. vm_compute. reflexivity. Qed.
Lemma r_c14 : ~ (forall a s tr, mv_new a = Ok s -> timed tr -> one_locked_per_period (run s tr)).
Proof.
  intros H. assert (Ht : timed tr_ext) by timed_tac. specialize (H ia s0 tr_ext s0_ok Ht "a.near" 0%nat 1%nat).
  destruct (get_locking_position 0 (run s0 tr_ext) 0 "a.near") as [p|] eqn:E1; [|vm_compute in E1; discriminate].
  destruct (get_locking_position 0 (run s0 tr_ext) 1 "a.near") as [q|] eqn:E2; [|vm_compute in E2; discriminate].
  specialize (H p q eq_refl eq_refl). vm_compute in E1, E2. injection E1 as <-. injection E2 as <-.
  cbn in H. specialize (H eq_refl eq_refl eq_refl). discriminate.
Qed.

(** C15: the extension is not limited by max_unbond_period: 3599 days, power factor 59.98 *)
Definition tr_extmax : list call :=
  [ dep "a.near" 100 "30" 1; usr "a.near" 2 (ExtendDays 0 3599) ].
Lemma r_c15 : ~ (forall a s tr, mv_new a = Ok s -> timed tr ->
   Forall (fun x => match x.2 with UpdateMaxUnbond _ => False | _ => True end) tr ->
   periods_bounded (run s tr)).
Proof.
  intros H. assert (Ht : timed tr_extmax) by timed_tac.
  specialize (H ia s0 tr_extmax s0_ok Ht ltac:(repeat constructor) "a.near" 0%nat).
  destruct (get_locking_position 0 (run s0 tr_extmax) 0 "a.near") as [p|] eqn:E1; [|vm_compute in E1; discriminate].
  specialize (H p eq_refl). vm_compute in E1. injection E1 as <-. revert H. vm_compute. intros H. apply H. reflexivity.
Qed.

(** C21: the vote of "a.near-x.near" changes what is shown of "a.near". *)
Definition tr_coll5 : list call := firstn 5 tr_coll.
Definition x_coll : call := usr "a.near-x.near" 2 (Vote (V 100) "foo" "o2").
Lemma tr_coll5_ok : all_ok s0 (tr_coll5 ++ [x_coll]) = true.
Proof. vm_compute. reflexivity. Qed.
Lemma r_c21 :
  ~ (forall a s tr x s' e now w, mv_new a = Ok s -> timed (tr ++ [x]) ->
       exec x.1 (run s tr) x.2 = Ok (s', e) -> w <> call_target x ->
       get_voter_info now s' w = get_voter_info now (run s tr) w).
Proof.
  intros H. assert (Ht : timed (tr_coll5 ++ [x_coll])) by timed_tac.
  specialize (H ia s0 tr_coll5 x_coll).
  destruct (exec x_coll.1 (run s0 tr_coll5) x_coll.2) as [[s' e]|] eqn:E; [|vm_compute in E; discriminate].
  specialize (H s' e 0 "a.near" s0_ok Ht eq_refl ltac:(discriminate)).
  assert (Es : s' = step (run s0 tr_coll5) x_coll) by (unfold step; rewrite E; reflexivity).
  rewrite Es in H.
  set (f := fun r => match r with Ok j => map (fun t => t.1.2) (vj_votes j) | Panic _ => [] end).
  apply (f_equal f) in H.
  assert (f (get_voter_info 0 (step (run s0 tr_coll5) x_coll) "a.near") = ["o2"]) as E1 by vmr.
  assert (f (get_voter_info 0 (run s0 tr_coll5) "a.near") = ["o1"]) as E2 by vmr.
  rewrite E1, E2 in H. discriminate H.
Qed.

(** C29: after the stale record of [tr_stale] the 50 votes of b.near cannot be withdrawn. *)
Lemma r_c29 :
  ~ (forall a s tr c addr obj x, mv_new a = Ok s -> timed tr -> collision_free tr ->
       get_votes_for_object (run s tr) (c_pred c) addr obj = Ok x -> 0 < x ->
       ~ lock_in_applies (run s tr) (now_ms c) addr obj -> c_deposit c = 0 ->
       exists s', exec c (run s tr) (Unvote addr obj) = Ok (s', [])).
Proof.
  intros H. destruct tr_stale_ok as (_ & Ht & Hc).
  destruct (H ia s0 tr_stale (cx "b.near" 0 7000000000) "B" "o" (V 50) s0_ok Ht Hc) as [s' Hs].
  - vmr.
  - reflexivity.
  - assert (E : get_lock_in_vote_filters (run s0 tr_stale) = (0, None, 0)) by vmr.
    unfold lock_in_applies. rewrite E. intros (_ & Ha & _). discriminate.
  - reflexivity.
  - assert (P1 : panics (exec (cx "b.near" 0 7000000000) (run s0 tr_stale) (Unvote "B" "o")) = true) by vmr.
    rewrite Hs in P1. discriminate.
Qed.

(** C19: c.near got a reward but never deposited; it can neither lock nor otherwise use it. *)
Definition tr_c19 : list call := [ claims "mpdao.near" (M 30) [("c.near", 30)] 10 ].
Lemma r_c19 :
  ~ (forall a s0 tr c amount days, mv_new a = Ok s0 -> timed tr -> let s := run s0 tr in
       c_deposit c = 0 -> amount <= get_claimable_mpdao s (c_pred c) -> lockable s (c_pred c) amount days ->
       exists s', exec c s (ClaimAndLock amount days) = Ok (s', [])).
Proof.
  intros H. assert (Ht : timed tr_c19) by timed_tac.
  destruct (H ia s0 tr_c19 (cx "c.near" 0 20) (M 30) 60 s0_ok Ht eq_refl) as [s' Hs].
  - vm_compute. discriminate.
  - unfold lockable. cbv zeta. split; [vm_compute; discriminate|]. split; [split; vm_compute; discriminate|].
    split; [vmr|]. split; [left; vmr|]. conj; vmr.
  - assert (P1 : panics (exec (cx "c.near" 0 20) (run s0 tr_c19) (ClaimAndLock (M 30) 60)) = true) by vmr.
    rewrite Hs in P1. discriminate.
Qed.

(** C24: b.near's later request replaces the one of a.near the operator reviewed. *)
Definition tr_deleg : list call := [ dep "a.near" 10 "60" 1 ].
Definition x_pre : call := usr1 "a.near" 2 (PreDelegate "0xabc" "sigA").
Definition tr_between : list call := [ usr1 "b.near" 3 (PreDelegate "0xabc" "sigB") ].
Definition x_confirm : call := usr1 "opr.near" 4 (OpConfirm "0xabc").
Lemma r_c24 :
  ~ (forall a s0 tr x tr2 y e g, mv_new a = Ok s0 -> timed (tr ++ x :: tr2 ++ [y]) ->
       x.2 = PreDelegate e g -> succeeds_after s0 tr x ->
       (forall z, In z tr2 -> c_pred z.1 <> operator_id (run s0 tr)) ->
       y.2 = OpConfirm e -> succeeds_after s0 (tr ++ x :: tr2) y ->
       get_delegate (run s0 (tr ++ x :: tr2 ++ [y])) e = Some (c_pred x.1)).
Proof.
  intros H. assert (Ht : timed (tr_deleg ++ x_pre :: tr_between ++ [x_confirm])) by timed_tac.
  specialize (H ia s0 tr_deleg x_pre tr_between x_confirm "0xabc" "sigA" s0_ok Ht eq_refl).
  assert (E : get_delegate (run s0 (tr_deleg ++ x_pre :: tr_between ++ [x_confirm])) "0xabc" = Some "b.near") by vmr.
  rewrite E in H. assert (Hx : Some "b.near" = Some (c_pred x_pre.1)); [|discriminate Hx]. apply H.
  - unfold succeeds_after. destruct (exec x_pre.1 (run s0 tr_deleg) x_pre.2) as [[s' e]|] eqn:E1; [eauto|].
    exfalso. assert (P : panics (exec x_pre.1 (run s0 tr_deleg) x_pre.2) = false) by vmr. rewrite E1 in P. discriminate P.
  - intros z [<-|[]]. assert (O : operator_id (run s0 tr_deleg) = "opr.near") by vmr. rewrite O. discriminate.
  - reflexivity.
  - unfold succeeds_after. set (t := run s0 (tr_deleg ++ x_pre :: tr_between)).
    destruct (exec x_confirm.1 t x_confirm.2) as [[s' e]|] eqn:E1; [eauto|].
    exfalso. assert (P : panics (exec x_confirm.1 t x_confirm.2) = false) by vmr. rewrite E1 in P. discriminate P.
Qed.

(** C25: inside the lock-in window rebalancing to one unit of power releases almost everything. *)
Definition tr_lockin : list call :=
  [ dep "a.near" 100 "60" 1; usr "a.near" 2 (Vote (V 100) "meta-apps" "app #7 x");
    usr "opr.near" 3 (SetLockIn 1000 7 (Some "meta-apps")) ].
Definition x_lockin : call := usr "a.near" 4 (Rebalance 1 "meta-apps" "app #7 x").
Lemma lockin_applies : lock_in_applies (run s0 tr_lockin) 4 "meta-apps" "app #7 x".
Proof.
  unfold lock_in_applies.
  assert (E : get_lock_in_vote_filters (run s0 tr_lockin) = (1000, Some "meta-apps", 7)) by vmr. rewrite E.
  split; [reflexivity|]. split; [reflexivity|]. exists "app", "x". vmr.
Qed.
Lemma r_c25 :
  ~ (forall a s0 tr x s' e addr obj w, mv_new a = Ok s0 -> timed (tr ++ [x]) ->
       collision_free (tr ++ [x]) -> no_zero_votes (tr ++ [x]) ->
       let s := run s0 tr in
       lock_in_applies s (now_ms x.1) addr obj -> exec x.1 s x.2 = Ok (s', e) ->
       exists n n', get_votes_for_object s w addr obj = Ok n /\ get_votes_for_object s' w addr obj = Ok n' /\ n <= n').
Proof.
  intros H. assert (Ht : timed (tr_lockin ++ [x_lockin])) by timed_tac.
  assert (Hc : collision_free (tr_lockin ++ [x_lockin])) by cf_tac.
  assert (Hz : no_zero_votes (tr_lockin ++ [x_lockin])).
  { unfold no_zero_votes, tr_lockin. repeat constructor; cbn; vm_compute; discriminate. }
  specialize (H ia s0 tr_lockin x_lockin).
  destruct (exec x_lockin.1 (run s0 tr_lockin) x_lockin.2) as [[s' e]|] eqn:E; [|vm_compute in E; discriminate].
  destruct (H s' e "meta-apps" "app #7 x" "a.near" s0_ok Ht Hc Hz) as (n & n' & E1 & E2 & Hle).
  - exact lockin_applies.
  - exact E.
  - assert (Es : s' = step (run s0 tr_lockin) x_lockin) by (unfold step; rewrite E; reflexivity).
    rewrite Es in E2.
    assert (F1 : get_votes_for_object (run s0 tr_lockin) "a.near" "meta-apps" "app #7 x" = Ok (V 100)) by vmr.
    assert (F2 : get_votes_for_object (step (run s0 tr_lockin) x_lockin) "a.near" "meta-apps" "app #7 x" = Ok 1) by vmr.
    rewrite F1 in E1. rewrite F2 in E2. injection E1 as <-. injection E2 as <-. revert Hle. unfold V. lia.
Qed.

(** C32: the data of the migrated voter is stored under the old contract. *)
Definition x_migr : call := usr "old.near" 5 (MigrationCreateLps "m.near" [(25000000 * 10 ^ 18, 60)] (Some "my data")).
Lemma r_c32 :
  ~ (forall a s0 tr c vid l d s' e, mv_new a = Ok s0 -> timed (tr ++ [(c, MigrationCreateLps vid l (Some d))]) ->
       get_airdrop_account (run s0 tr) vid = Panic "unwrap on None" ->
       exec c (run s0 tr) (MigrationCreateLps vid l (Some d)) = Ok (s', e) ->
       get_airdrop_account s' vid = Ok d).
Proof.
  intros H. assert (Ht : timed ([] ++ [x_migr])) by timed_tac.
  specialize (H ia s0 [] x_migr.1 "m.near" [(25000000 * 10 ^ 18, 60)] "my data").
  change (exec x_migr.1 (run s0 []) (MigrationCreateLps "m.near" [(25000000 * 10 ^ 18, 60)] (Some "my data")))
    with (exec x_migr.1 (run s0 []) x_migr.2) in H.
  destruct (exec x_migr.1 (run s0 []) x_migr.2) as [[s' e]|] eqn:E; [|vm_compute in E; discriminate].
  specialize (H s' e s0_ok Ht). assert (Es : s' = step (run s0 []) x_migr) by (unfold step; rewrite E; reflexivity).
  rewrite Es in H.
  set (r := get_airdrop_account (step (run s0 []) x_migr) "m.near") in H.
  assert (P1 : panics r = true) by vmr. rewrite H in P1; [discriminate P1| |reflexivity].
  vmr.
Qed.
