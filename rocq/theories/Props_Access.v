(** Props_Access.v -- C08, C22-C25, C32, C34, C36: time lock, delegation, vote lock-in, listings
    and airdrop data. *)

From Verif Require Import MVMisc MVTime MVRefuted.

(** C08: what [vid] has taken out by time [T] is covered by what was credited to [vid] at least
    its unbonding period before [T]. *)
Theorem C08_time_lock :
  forall a s0 tr vid T,
    mv_new a = Ok s0 -> timed tr -> Forall (fun x : call => now_ms x.1 <= T) tr ->
    run_sum (withdrawn vid) s0 tr <= run_sum (matured vid T) s0 tr + run_sum (given_back vid) s0 tr.
Proof. exact c08. Qed.
Print Assumptions C08_time_lock.

(** a.near takes out 4 at day 300; 50 were bonded for 300 days, 110 for 60 *)
Example C08_example :
  all_ok s0 tr_demo = true /\
  run_sum (withdrawn "a.near") s0 tr_demo = M 4 /\
  run_sum (matured "a.near" (300 * DAY + 101)) s0 tr_demo = M 160 /\
  run_sum (matured "a.near" (300 * DAY)) s0 tr_demo = M 110 /\
  run_sum (matured "a.near" (60 * DAY)) s0 tr_demo = 0 /\
  run_sum (withdrawn "b.near") s0 tr_demo = M 70.
Proof. conj; vmr. Qed.

(** C22 *)
Theorem C22_delegation_consistent :
  forall a s0 tr, mv_new a = Ok s0 -> delegation_consistent (run s0 tr).
Proof. exact c22. Qed.
Print Assumptions C22_delegation_consistent.

(** the two maps never disagree so badly that confirming or removing would panic *)
Theorem C22_confirm_never_stuck :
  forall a s0 tr c e, mv_new a = Ok s0 -> c_deposit c = 1 -> c_pred c = operator_id (run s0 tr) ->
    exists s', exec c (run s0 tr) (OpConfirm e) = Ok (s', []).
Proof. intros a s0 tr c e H0. apply c22_confirm, DIs_run. eapply DIs_init; exact H0. Qed.
Print Assumptions C22_confirm_never_stuck.
Theorem C22_remove_never_stuck :
  forall a s0 tr c e, mv_new a = Ok s0 -> c_deposit c = 1 ->
    get_delegate (run s0 tr) e = Some (c_pred c) ->
    exists s', exec c (run s0 tr) (RemoveDelegated e) = Ok (s', []).
Proof. intros a s0 tr c e H0. apply c22_remove, DIs_run. eapply DIs_init; exact H0. Qed.
Print Assumptions C22_remove_never_stuck.

(** two accounts, three EVM addresses, one of which changes hands *)
Definition tr_dele : list call :=
  [ dep "a.near" 100 "60" 1;
    usr "opr.near" 1 (MirrorLps "0x1" [(60, M 50)]);
    claims "stnear.near" (3 * st_unit) [("0x1.evmp.near", 3)] 2;
    usr1 "a.near" 2 (PreDelegate "0x1" "s1"); usr1 "a.near" 2 (PreDelegate "0x2" "s2");
    usr1 "b.near" 2 (PreDelegate "0x3" "s3");
    usr1 "opr.near" 3 (OpConfirm "0x1"); usr1 "opr.near" 3 (OpConfirm "0x2"); usr1 "opr.near" 3 (OpConfirm "0x3");
    usr1 "b.near" 4 (PreDelegate "0x2" "s4"); usr1 "opr.near" 5 (OpConfirm "0x2");
    usr "a.near" 6 (VoteDelegated "0x1" (V 20) "meta-apps" "app1") ].
Example C22_example :
  all_ok s0 tr_dele = true /\ let s := run s0 tr_dele in
  get_delegating_evm_addresses s "a.near" = ["0x1"] /\
  get_delegating_evm_addresses s "b.near" = ["0x3"; "0x2"] /\ get_delegate s "0x2" = Some "b.near".
Proof. conj; vmr. Qed.

(** C23 *)
Theorem C23_delegated_actions :
  forall a s0 tr x s' f e, mv_new a = Ok s0 -> let s := run s0 tr in
    exec x.1 s x.2 = Ok (s', f) ->
    (exists n, x.2 = DelegatedClaim e n) \/ (exists vp a o, x.2 = VoteDelegated e vp a o) \/
    (exists a o, x.2 = UnvoteDelegated e a o) ->
    get_delegate s e = Some (c_pred x.1) /\
    (forall w, w <> evm_account e ->
       get_voter s' w = get_voter s w /\
       get_claimable_mpdao s' w = get_claimable_mpdao s w /\ get_claimable_stnear s' w = get_claimable_stnear s w) /\
    match x.2 with
    | DelegatedClaim _ n =>
        f = [PaySt (ci_stnear (get_contract_info s)) (evm_account e) (c_pred x.1) n] /\
        get_claimable_stnear s' (evm_account e) + n = get_claimable_stnear s (evm_account e) /\
        voters s' = voters s
    | _ => f = [] /\ get_claimable_stnear s' (evm_account e) = get_claimable_stnear s (evm_account e) /\
           get_claimable_mpdao s' (evm_account e) = get_claimable_mpdao s (evm_account e)
    end.
Proof.
  intros a s0 tr x s' f e H0 s H Hx.
  assert (HD : DIs s) by (apply DIs_run; eapply DIs_init; exact H0).
  assert (HC : CIs s) by (apply CIs_run; eapply CIs_init; exact H0).
  destruct (c23 x s s' f e HD HC H Hx) as (R1 & R2 & R3). split; [exact R1|]. split; [exact R2|].
  destruct Hx as [(n & E)|[(vp & b & o & E)|(b & o & E)]]; rewrite E in *; [exact R3| |];
    destruct R3 as [R3 F]; unfold claimf in F; injection F as F1 F2 F3 F4 F5 F6;
    split; try exact R3; unfold get_claimable_mpdao, get_claimable_stnear; rewrite ?F1, ?F2, ?F3, ?F4; split; congruence.
Qed.
Print Assumptions C23_delegated_actions.

Example C23_example :
  let s := run s0 tr_dele in
  let claim := DelegatedClaim "0x1" (2 * st_unit) in
  panics (exec (cx "a.near" 0 9) s claim) = false /\
  panics (exec (cx "b.near" 0 9) s claim) = true /\ panics (exec (cx "0x1.evmp.near" 0 9) s claim) = true /\
  panics (exec (cx "a.near" 0 9) s (UnvoteDelegated "0x1" "meta-apps" "app1")) = false /\
  panics (exec (cx "b.near" 0 9) s (UnvoteDelegated "0x1" "meta-apps" "app1")) = true /\
  panics (exec (cx "a.near" 0 9) s (VoteDelegated "0x2" 0 "meta-apps" "app1")) = true.
Proof. conj; vmr. Qed.

(** C24: the delegate of [e] is [a] only if [a] asked for it and the operator confirmed while that
    was the request on record. *)
Theorem C24_delegation_consent :
  forall a0 s0 tr e a, mv_new a0 = Ok s0 -> get_delegate (run s0 tr) e = Some a ->
    exists g tr1 x tr2 y tr3, tr = tr1 ++ x :: tr2 ++ y :: tr3 /\
      x.2 = PreDelegate e g /\ c_pred x.1 = a /\ succeeds_after s0 tr1 x /\
      let t := run s0 (tr1 ++ x :: tr2) in
      y.2 = OpConfirm e /\ c_pred y.1 = operator_id t /\ get_pre_delegate t e = Some (a, g) /\
      get_delegation_signature (run s0 tr) e = Ok (a, g).
Proof. exact c24_origin. Qed.
Print Assumptions C24_delegation_consent.

Theorem C24_changes :
  forall a s0 tr x s' f e, mv_new a = Ok s0 -> let s := run s0 tr in
    exec x.1 s x.2 = Ok (s', f) -> get_delegate s' e <> get_delegate s e ->
    (x.2 = OpConfirm e /\ c_pred x.1 = operator_id s /\
     exists a g, get_pre_delegate s e = Some (a, g) /\ get_delegate s' e = Some a) \/
    (x.2 = RemoveDelegated e /\ get_delegate s e = Some (c_pred x.1) /\ get_delegate s' e = None).
Proof.
  intros a s0 tr x s' f e H0 s H Hne.
  assert (HD : DIs s) by (apply DIs_run; eapply DIs_init; exact H0).
  destruct (c24_step x s s' f e HD H) as [(E & Ho & a1 & g & Hp & Es)|(E & Hg & Es)].
  - intros E. apply Hne. unfold get_delegate. rewrite E. reflexivity.
  - left. split; [exact E|]. split; [exact Ho|]. exists a1, g. split; [exact Hp|]. unfold get_delegate. rewrite Es. reflexivity.
  - right. split; [exact E|]. split; [exact Hg|]. unfold get_delegate. rewrite Es. reflexivity.
Qed.
Print Assumptions C24_changes.

(** requests themselves come from their account and are only discarded by the operator or
    replaced by another account's request *)
Theorem C24_requests :
  forall a s0 tr x s' f e, mv_new a = Ok s0 -> let s := run s0 tr in
    exec x.1 s x.2 = Ok (s', f) -> get_pre_delegate s' e <> get_pre_delegate s e ->
    (exists g, x.2 = PreDelegate e g /\ get_pre_delegate s' e = Some (c_pred x.1, g)) \/
    ((x.2 = OpRemovePre e \/ x.2 = OpConfirm e) /\ c_pred x.1 = operator_id s /\ get_pre_delegate s' e = None).
Proof.
  intros a s0 tr x s' f e H0 s H. eapply c24_pre_step; [|exact H]. apply DIs_run. eapply DIs_init; exact H0.
Qed.
Print Assumptions C24_requests.

(** The reviewed request may be swapped before the confirmation. *)
Theorem C24_reviewed_request_refuted :
  ~ (forall a s0 tr x tr2 y e g, mv_new a = Ok s0 -> timed (tr ++ x :: tr2 ++ [y]) ->
       x.2 = PreDelegate e g -> succeeds_after s0 tr x ->
       (forall z, In z tr2 -> c_pred z.1 <> operator_id (run s0 tr)) ->
       y.2 = OpConfirm e -> succeeds_after s0 (tr ++ x :: tr2) y ->
       get_delegate (run s0 (tr ++ x :: tr2 ++ [y])) e = Some (c_pred x.1)).
Proof. exact r_c24. Qed.
Print Assumptions C24_reviewed_request_refuted.

Example C24_example :
  let s := run s0 tr_dele in
  get_delegation_signature s "0x2" = Ok ("b.near", "s4") /\ get_pre_delegate s "0x2" = None /\
  get_pre_delegate (run s0 (firstn 10 tr_dele)) "0x2" = Some ("b.near", "s4") /\
  get_delegate (run s0 (firstn 10 tr_dele)) "0x2" = Some "a.near".
Proof. conj; vmr. Qed.

(** C25 *)
Theorem C25_removals_rejected :
  forall c s addr obj, lock_in_applies s (now_ms c) addr obj ->
    forall o, (o = Unvote addr obj \/ (exists e, o = UnvoteDelegated e addr obj) \/ o = Rebalance 0 addr obj) ->
    forall r, exec c s o <> Ok r.
Proof. exact c25_rejected. Qed.
Print Assumptions C25_removals_rejected.

(** No call except rebalancing that very vote, or the operator's mirroring of EVM positions,
    lowers anyone's votes on a locked-in object. *)
Theorem C25_votes_kept :
  forall a0 s0 tr x s' e addr obj w,
    mv_new a0 = Ok s0 -> collision_free (tr ++ [x]) -> no_zero_votes (tr ++ [x]) ->
    let s := run s0 tr in
    lock_in_applies s (now_ms x.1) addr obj -> exec x.1 s x.2 = Ok (s', e) ->
    (forall vp, x.2 <> Rebalance vp addr obj) -> (forall ext l, x.2 <> MirrorLps ext l) ->
    exists n n', get_votes_for_object s w addr obj = Ok n /\ get_votes_for_object s' w addr obj = Ok n' /\ n <= n'.
Proof. exact c25_kept. Qed.
Print Assumptions C25_votes_kept.

Theorem C25_rebalance_refuted :
  ~ (forall a s0 tr x s' e addr obj w, mv_new a = Ok s0 -> timed (tr ++ [x]) ->
       collision_free (tr ++ [x]) -> no_zero_votes (tr ++ [x]) ->
       let s := run s0 tr in
       lock_in_applies s (now_ms x.1) addr obj -> exec x.1 s x.2 = Ok (s', e) ->
       exists n n', get_votes_for_object s w addr obj = Ok n /\ get_votes_for_object s' w addr obj = Ok n' /\ n <= n').
Proof. exact r_c25. Qed.
Print Assumptions C25_rebalance_refuted.

Example C25_example :
  lock_in_applies (run s0 tr_lockin) 4 "meta-apps" "app #7 x" /\
  let s := run s0 tr_lockin in
  panics (exec (cx "a.near" 0 4) s (Unvote "meta-apps" "app #7 x")) = true /\
  panics (exec (cx "a.near" 0 1000) s (Unvote "meta-apps" "app #7 x")) = false /\
  panics (exec (cx "a.near" 0 4) s (Rebalance 0 "meta-apps" "app #7 x")) = true /\
  panics (exec (cx "a.near" 0 4) s (Rebalance 1 "meta-apps" "app #7 x")) = false.
Proof. split; [exact lockin_applies|]. conj; vmr. Qed.

(** C32: false, and what happens instead. *)
Theorem C32_migrated_data_refuted :
  ~ (forall a s0 tr c vid l d s' e, mv_new a = Ok s0 -> timed (tr ++ [(c, MigrationCreateLps vid l (Some d))]) ->
       get_airdrop_account (run s0 tr) vid = Panic "unwrap on None" ->
       exec c (run s0 tr) (MigrationCreateLps vid l (Some d)) = Ok (s', e) ->
       get_airdrop_account s' vid = Ok d).
Proof. exact r_c32. Qed.
Print Assumptions C32_migrated_data_refuted.

Theorem C32_migrated_data_goes_to_old_contract :
  forall c s vid l d s' e, exec c s (MigrationCreateLps vid l (Some d)) = Ok (s', e) ->
    c_pred c = prev_gov s /\
    (forall u, u <> c_pred c -> get_airdrop_account s' u = get_airdrop_account s u) /\
    get_airdrop_account s' (c_pred c) =
      (if check_if_registered s (c_pred c) then get_airdrop_account s (c_pred c) else Ok d).
Proof. exact c32. Qed.
Print Assumptions C32_migrated_data_goes_to_old_contract.

Example C32_example :
  let s := step s0 x_migr in
  get_airdrop_account s "old.near" = Ok "my data" /\ check_if_registered s "m.near" = false /\
  positions_amount s "m.near" = M 25.
Proof. conj; vmr. Qed.

(** C34: [n] pages of size [k] covering the collection list exactly its entries, once each. *)
Theorem C34_claims :
  forall a s0 tr k n, mv_new a = Ok s0 -> let s := run s0 tr in (length (claim_mp s) <= n * k)%nat ->
    exists l, pages (get_claims s) k n = Ok l /\ NoDup l.*1 /\
      forall u x, In (u, x) l <-> get_claimable_mpdao s u = x /\ 0 < x.
Proof. intros a s0 tr k n H0. apply c34_claims, CIs_run. eapply CIs_init; exact H0. Qed.
Print Assumptions C34_claims.
Theorem C34_stnear_claims :
  forall a s0 tr k n, mv_new a = Ok s0 -> let s := run s0 tr in (length (claim_st s) <= n * k)%nat ->
    exists l, pages (get_stnear_claims s) k n = Ok l /\ NoDup l.*1 /\
      forall u x, In (u, x) l <-> get_claimable_stnear s u = x /\ 0 < x.
Proof. intros a s0 tr k n H0. apply c34_stnear, CIs_run. eapply CIs_init; exact H0. Qed.
Print Assumptions C34_stnear_claims.
Theorem C34_airdrop_accounts :
  forall a s0 tr k n, mv_new a = Ok s0 -> let s := run s0 tr in (length (user_data s) <= n * k)%nat ->
    exists l, pages (get_airdrop_accounts s) k n = Ok l /\ NoDup l.*1 /\
      forall u d, In (u, d) l <-> get_airdrop_account s u = Ok d.
Proof. exact c34_airdrop. Qed.
Print Assumptions C34_airdrop_accounts.
(** [get_delegates] rejects a start beyond the last entry, so exactly the pages needed *)
Theorem C34_delegates :
  forall a s0 tr k n, mv_new a = Ok s0 -> let s := run s0 tr in let m := length (evm_delegates s) in
    (0 < n)%nat -> (0 < k)%nat -> ((n - 1) * k < m <= n * k)%nat -> N.of_nat (n * k) < 2 ^ 32 ->
    exists l, pages (get_delegates s) k n = Ok l /\ NoDup l.*1 /\
      (forall u d, In (u, d) l -> d = get_delegating_evm_addresses s u) /\
      (forall u, get_delegating_evm_addresses s u <> [] -> In (u, get_delegating_evm_addresses s u) l).
Proof. intros a s0 tr k n H0. apply c34_delegates, DIs_run. eapply DIs_init; exact H0. Qed.
Print Assumptions C34_delegates.
Theorem C34_voters :
  forall a s0 tr now k n, mv_new a = Ok s0 -> collision_free tr ->
    let s := run s0 tr in (length (voter_ids s) <= n * k)%nat ->
    exists l, pages (get_voters now s) k n = Ok l /\ map vj_id l = voter_ids s /\ NoDup (map vj_id l) /\
      forall j, In j l <-> exists vid, In vid (voter_ids s) /\ get_voter_info now s vid = Ok j.
Proof. exact c34_voters. Qed.
Print Assumptions C34_voters.

Example C34_example :
  let s := run s0 (firstn 12 tr_demo) in
  pages (get_claims s) 1 2 = Ok [("a.near", M 10); ("c.near", M 20)] /\ get_claims s 0 7 = pages (get_claims s) 1 2 /\
  length (voter_ids s) = 2%nat /\
  match pages (get_voters 20 s) 1 2 with Ok l => map vj_id l = ["a.near"; "b.near"] | Panic _ => False end /\
  pages (get_delegates (run s0 tr_dele)) 1 2 = Ok [("a.near", ["0x1"]); ("b.near", ["0x3"; "0x2"])].
Proof. conj; vmr. Qed.

(** C36 *)
Theorem C36_own_registration :
  forall c s d,
    (forall s' e, exec c s (UpdateAirdrop d) = Ok (s', e) ->
       c_deposit c = reg_cost s /\ e = [] /\
       check_if_registered s' (c_pred c) = true /\ get_airdrop_account s' (c_pred c) = Ok d /\
       (forall u, u <> c_pred c -> get_airdrop_account s' u = get_airdrop_account s u /\
                                   check_if_registered s' u = check_if_registered s u) /\
       s' = s <| user_data := user_data s' |>) /\
    (c_deposit c = reg_cost s -> exists s', exec c s (UpdateAirdrop d) = Ok (s', [])).
Proof. exact c36_own. Qed.
Print Assumptions C36_own_registration.
Theorem C36_operator_list :
  forall c s l s' e, exec c s (OpMultiSetAirdrop l) = Ok (s', e) ->
    c_pred c = operator_id s /\ e = [] /\
    (forall u, get_airdrop_account s' u = match last_listed u l with Some d => Ok d | None => get_airdrop_account s u end) /\
    s' = s <| user_data := user_data s' |>.
Proof. exact c36_operator. Qed.
Print Assumptions C36_operator_list.
Theorem C36_nobody_else :
  forall x s s' e u, exec x.1 s x.2 = Ok (s', e) -> get_airdrop_account s' u <> get_airdrop_account s u ->
    ((exists d, x.2 = UpdateAirdrop d) /\ u = c_pred x.1) \/
    (exists l, x.2 = OpMultiSetAirdrop l /\ last_listed u l <> None) \/
    (exists vid l d, x.2 = MigrationCreateLps vid l (Some d) /\ u = c_pred x.1 /\ u = prev_gov s /\
       check_if_registered s u = false /\ get_airdrop_account s' u = Ok d).
Proof. exact c36_only. Qed.
Print Assumptions C36_nobody_else.

Example C36_example :
  let s := run s0 [ (cx "a.near" 7 1, UpdateAirdrop "A"); (cx "b.near" 6 1, UpdateAirdrop "B") ] in
  let s1 := step s (usr "opr.near" 2 (OpMultiSetAirdrop [("c.near", "C"); ("a.near", "A2"); ("c.near", "C2")])) in
  get_airdrop_account s "a.near" = Ok "A" /\ check_if_registered s "b.near" = false /\
  get_airdrop_account s1 "a.near" = Ok "A2" /\ get_airdrop_account s1 "c.near" = Ok "C2".
Proof. conj; vmr. Qed.
