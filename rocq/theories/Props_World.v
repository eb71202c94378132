(** Props_World.v -- C06, C56: solvency in mpDAO and stNEAR of the composed system. *)

From Verif Require Import WorldProofs MVWitness.

(** C06 *)
Theorem C06_solvent :
  forall w0 evs, wstart w0 -> Forall (calm Mp w0) evs ->
    let w := wrun w0 evs in
    mp_owed (w_mv w) + out_flight Mp w + in_flight Mp w <= ft_balance_of (w_mp w) (self_id (w_mv w)).
Proof. exact (w_solvent Mp). Qed.
Print Assumptions C06_solvent.

(** with imports the deficit is at most what was imported *)
Theorem C06_deficit_is_imported :
  forall w0 evs, wstart w0 -> Forall (not_mpdao w0) evs ->
    let w := wrun w0 evs in
    mp_owed (w_mv w) + out_flight Mp w + in_flight Mp w <= funds Mp w + imported w0 evs.
Proof. exact w_general. Qed.
Print Assumptions C06_deficit_is_imported.

(** the transfer of a withdrawal, whenever it is executed, finds the funds *)
Theorem C06_withdrawal_funded :
  forall w0 evs i tok src rcv n c ans, wstart w0 -> Forall (calm Mp w0) evs ->
    let w := wrun w0 evs in
    w_pend w !! i = Some (PPay Mp tok src rcv n) -> t_registered (w_mp w) rcv = true ->
    let w' := wstep w (ERun i c false ans) in
    src = rcv /\ tok = t_self (w_mp w) /\ 0 < n /\
    w_pend w' = delete i (w_pend w) ++ [PBack Mp src n true] /\ w_mv w' = w_mv w /\
    ft_balance_of (w_mp w') rcv = ft_balance_of (w_mp w) rcv + n /\ funds Mp w' + n = funds Mp w.
Proof.
  intros w0 evs i tok src rcv n c ans Hs Hg w Hp Hr w'. pose proof (w_ready Mp w0 evs Hs Hg) as HR.
  destruct (pok_at _ _ _ _ (proj1 HR) Hp) as (_ & P & _). destruct (P eq_refl) as (P1 & P2 & P3).
  split; [exact P2|]. split; [exact P1|]. split; [exact P3|]. exact (w_funded Mp w i tok src rcv n c ans HR Hp P3 Hr).
Qed.
Print Assumptions C06_withdrawal_funded.

(** a failed one is always put back, whatever happened in between *)
Theorem C06_failed_withdrawal_restored :
  forall w0 evs i src n c ans, wstart w0 -> Forall (calm Mp w0) evs ->
    let w := wrun w0 evs in
    w_pend w !! i = Some (PBack Mp src n false) ->
    let w' := wstep w (ERun i c false ans) in
    w_pend w' = delete i (w_pend w) /\ raw_balance (w_mv w') src = raw_balance (w_mv w) src + n.
Proof. intros w0 evs i src n c ans Hs Hg w. exact (w_restore_mp w i src n c ans (w_ready Mp w0 evs Hs Hg)). Qed.
Print Assumptions C06_failed_withdrawal_restored.

(** a rejected deposit goes back in full *)
Theorem C06_rejected_deposit_refunded :
  forall w0 evs i sender n c ans, wstart w0 -> Forall (calm Mp w0) evs ->
    let w := wrun w0 evs in
    w_pend w !! i = Some (PResolve Mp sender (self_id (w_mv w)) n None) ->
    sender <> self_id (w_mv w) -> t_registered (w_mp w) sender = true ->
    let w' := wstep w (ERun i c false ans) in
    w_pend w' = delete i (w_pend w) /\ w_mv w' = w_mv w /\
    ft_balance_of (w_mp w') sender = ft_balance_of (w_mp w) sender + n /\ funds Mp w' + n = funds Mp w.
Proof. intros w0 evs i sender n c ans Hs Hg w. exact (w_refund Mp w i sender n c ans (w_ready Mp w0 evs Hs Hg)). Qed.
Print Assumptions C06_rejected_deposit_refunded.

(** C56 *)
Theorem C56_solvent :
  forall w0 evs, wstart w0 -> Forall (keeps_stnear w0) evs ->
    let w := wrun w0 evs in
    ci_uncl_st (get_contract_info (w_mv w)) + out_flight St w + in_flight St w
      <= ft_balance_of (w_st w) (self_id (w_mv w)).
Proof. exact (w_solvent St). Qed.
Print Assumptions C56_solvent.

Theorem C56_claim_funded :
  forall w0 evs i tok src rcv n c ans, wstart w0 -> Forall (keeps_stnear w0) evs ->
    let w := wrun w0 evs in
    w_pend w !! i = Some (PPay St tok src rcv n) -> 0 < n -> t_registered (w_st w) rcv = true ->
    let w' := wstep w (ERun i c false ans) in
    w_pend w' = delete i (w_pend w) ++ [PBack St src n true] /\ w_mv w' = w_mv w /\
    ft_balance_of (w_st w') rcv = ft_balance_of (w_st w) rcv + n /\ funds St w' + n = funds St w.
Proof. intros w0 evs i tok src rcv n c ans Hs Hg w. exact (w_funded St w i tok src rcv n c ans (w_ready St w0 evs Hs Hg)). Qed.
Print Assumptions C56_claim_funded.

Theorem C56_failed_claim_restored :
  forall w0 evs i src n c ans, wstart w0 -> Forall (keeps_stnear w0) evs ->
    let w := wrun w0 evs in
    w_pend w !! i = Some (PBack St src n false) -> 0 < n ->
    let w' := wstep w (ERun i c false ans) in
    w_pend w' = delete i (w_pend w) /\
    get_claimable_stnear (w_mv w') src = get_claimable_stnear (w_mv w) src + n.
Proof. intros w0 evs i src n c ans Hs Hg w. exact (w_restore_st w i src n c ans (w_ready St w0 evs Hs Hg)). Qed.
Print Assumptions C56_failed_claim_restored.

Theorem C56_rejected_transfer_refunded :
  forall w0 evs i sender n c ans, wstart w0 -> Forall (keeps_stnear w0) evs ->
    let w := wrun w0 evs in
    w_pend w !! i = Some (PResolve St sender (self_id (w_mv w)) n None) ->
    sender <> self_id (w_mv w) -> t_registered (w_st w) sender = true ->
    let w' := wstep w (ERun i c false ans) in
    w_pend w' = delete i (w_pend w) /\ w_mv w' = w_mv w /\
    ft_balance_of (w_st w') sender = ft_balance_of (w_st w) sender + n /\ funds St w' + n = funds St w.
Proof. intros w0 evs i sender n c ans Hs Hg w. exact (w_refund St w i sender n c ans (w_ready St w0 evs Hs Hg)). Qed.
Print Assumptions C56_rejected_transfer_refunded.

(** ** Witnesses *)
Definition tok0 (self : string) : tstate :=
  match t_new self "own.near" (10 ^ 30) 5 with Ok t => t | Panic _ => mkTok "" [] 0 "" [] 0 end.
Definition w0 : world := mkWorld s0 (tok0 "mpdao.near") (tok0 "stnear.near") [].
Lemma w0_start : wstart w0.
Proof.
  exists ia, "own.near", (10 ^ 30), 5, "own.near", (10 ^ 30), 5. conj; try (vm_compute; reflexivity); vm_compute; discriminate.
Qed.

Definition tcx (k : tk) (p : string) (d : N) (o : top) : wev := ETok k (cx p d 1, o).
Definition reg (k : tk) (p : string) : wev := tcx k p 5 (TStorageDeposit None).
Definition run1 (i : nat) : wev := ERun i (cx "" 0 1) false None.
Definition runc (i : nat) (l : list (string * N)) : wev :=
  ERun i (mkCtx "" "" 0 1000000 (fun _ => None) (fun _ => Some l)) false None.
Definition run_at (i : nat) (ms : N) : wev := ERun i (cx "" 0 ms) false None.
Definition fail1 (i : nat) : wev := ERun i (cx "" 0 1) true None.
Definition umv (v : string) (t : N) (o : op) : wev := EMv (cx v 0 t, o).
Definition umv1 (v : string) (t : N) (o : op) : wev := EMv (cx v 1 t, o).

(** deposits of alice and bob, one of bob's rejected (below the minimum), rewards in both tokens *)
Definition evs_setup : list wev :=
  [ tcx Mp "own.near" 5 (TStorageDeposit (Some "mv.near")); reg Mp "alice"; reg Mp "bob"; tcx St "own.near" 5 (TStorageDeposit (Some "mv.near")); reg St "bob";
    tcx Mp "own.near" 1 (TTransfer "alice" (M 100)); tcx Mp "own.near" 1 (TTransfer "bob" (M 50));
    tcx Mp "alice" 1 (TTransferCall "mv.near" (M 100) "60"); tcx Mp "bob" 1 (TTransferCall "mv.near" (M 10) "30");
    tcx Mp "bob" 1 (TTransferCall "mv.near" 5 "30");
    run_at 1 1; run_at 0 1; run1 0; run1 1; run1 0; run1 0;
    tcx St "own.near" 1 (TTransferCall "mv.near" (10 ^ 20) "for-claims:x"); runc 0 [("bob", 1)]; run1 0 ].
Example C06_setup :
  let w := wrun w0 evs_setup in
  mp_owed (w_mv w) = M 110 /\ funds Mp w = M 110 /\ ft_balance_of (w_mp w) "bob" = M 40 /\
  funds St w = 10 ^ 20 /\ ci_uncl_st (get_contract_info (w_mv w)) = 10 ^ 20 /\ w_pend w = [].
Proof. conj; vmr. Qed.

(** withdrawals: bob's first transfer fails and is put back, his second is in flight while alice's
    rejected deposit awaits its refund *)
Definition evs_out : list wev :=
  evs_setup ++
  [ umv "bob" 2 (Unlock 0); umv1 "bob" (3 + 30 * DAY) (Withdraw [0%nat] (M 4)); fail1 0; run1 0;
    umv1 "bob" (4 + 30 * DAY) (Withdraw [] (M 3));
    tcx Mp "own.near" 1 (TTransfer "alice" (M 8)); tcx Mp "alice" 1 (TTransferCall "mv.near" (M 7) "bad period"); run1 1;
    umv "bob" (5 + 30 * DAY) (ClaimStnear (10 ^ 19)) ].
Example C06_example :
  Forall (calm Mp w0) evs_out /\ Forall (keeps_stnear w0) evs_out /\
  let w := wrun w0 evs_out in
  w_pend w = [PPay Mp "mpdao.near" "bob" "bob" (M 3); PResolve Mp "alice" "mv.near" (M 7) None;
              PPay St "stnear.near" "bob" "bob" (10 ^ 19)] /\
  mp_owed (w_mv w) = M 107 /\ out_flight Mp w = M 3 /\ in_flight Mp w = M 7 /\ funds Mp w = M 117 /\
  ci_uncl_st (get_contract_info (w_mv w)) = 9 * 10 ^ 19 /\ out_flight St w = 10 ^ 19 /\ funds St w = 10 ^ 20 /\
  t_registered (w_mp w) "bob" = true /\ t_registered (w_mp w) "alice" = true /\ t_registered (w_st w) "bob" = true /\
  (let w' := wrun w [run1 0; run1 0; run1 0; run1 0] in
   ft_balance_of (w_mp w') "bob" = M 43 /\ ft_balance_of (w_mp w') "alice" = M 8 /\ funds Mp w' = M 107 /\
   ft_balance_of (w_st w') "bob" = 10 ^ 19) /\
  (let w' := wrun w [fail1 0; fail1 1] in
   w_pend w' = [PResolve Mp "alice" "mv.near" (M 7) None; PBack Mp "bob" (M 3) false; PBack St "bob" (10 ^ 19) false] /\
   raw_balance (w_mv (wstep w' (run1 1))) "bob" = raw_balance (w_mv w') "bob" + M 3 /\
   get_claimable_stnear (w_mv (wstep w' (run1 2))) "bob" = 10 ^ 20).
Proof.
  split; [unfold evs_out, evs_setup; repeat constructor|]. split; [unfold evs_out, evs_setup; repeat constructor|]. conj; vmr.
Qed.

(** if the owner points the stNEAR address to the mpDAO token, stNEAR rewards are paid in mpDAO *)
Definition evs_repoint : list wev :=
  evs_setup ++ [ umv1 "own.near" 2 (SetStnear "mpdao.near"); umv "bob" 3 (ClaimStnear (M 60)); run1 0 ].
Example C06_repoint_case :
  let w := wrun w0 evs_repoint in mp_owed (w_mv w) = M 110 /\ funds Mp w = M 50.
Proof. conj; vmr. Qed.
Theorem C06_repointed_refuted :
  ~ (forall w0 evs, wstart w0 -> Forall no_import evs -> let w := wrun w0 evs in mp_owed (w_mv w) <= funds Mp w).
Proof.
  intros H. specialize (H w0 evs_repoint w0_start). cbv zeta in H.
  assert (H1 : mp_owed (w_mv (wrun w0 evs_repoint)) = M 110) by vmr. assert (H2 : funds Mp (wrun w0 evs_repoint) = M 50) by vmr.
  rewrite H1, H2 in H. vm_compute in H. apply H; [repeat constructor|reflexivity].
Qed.
Print Assumptions C06_repointed_refuted.

(** imported positions are not covered by tokens *)
Definition evs_import : list wev := evs_setup ++ [ umv "opr.near" 2 (MirrorLps "0xabc" [(60, M 5)]) ].
Theorem C06_imports_refuted :
  ~ (forall w0 evs, wstart w0 -> Forall (not_mpdao w0) evs -> let w := wrun w0 evs in mp_owed (w_mv w) <= funds Mp w).
Proof.
  intros H. specialize (H w0 evs_import w0_start). cbv zeta in H.
  assert (H1 : mp_owed (w_mv (wrun w0 evs_import)) = M 115) by vmr. assert (H2 : funds Mp (wrun w0 evs_import) = M 110) by vmr.
  rewrite H1, H2 in H. vm_compute in H. apply H; [repeat constructor|reflexivity].
Qed.
Print Assumptions C06_imports_refuted.

(** the owner points the stNEAR address to a token of no value, distributes that, and points back *)
Definition evs_fake : list wev :=
  evs_setup ++
  [ umv1 "own.near" 2 (SetStnear "fake.near");
    EMv (mkCtx "fake.near" "fake.near" 0 3 (fun _ => None) (fun _ => Some [("eve", 7)]), FtOnTransfer "eve" (7 * 10 ^ 20) "for-claims:x");
    umv1 "own.near" 4 (SetStnear "stnear.near") ].
Theorem C56_repointed_refuted :
  ~ (forall w0 evs, wstart w0 -> let w := wrun w0 evs in ci_uncl_st (get_contract_info (w_mv w)) <= funds St w).
Proof.
  intros H. specialize (H w0 evs_fake w0_start). cbv zeta in H.
  assert (H1 : ci_uncl_st (get_contract_info (w_mv (wrun w0 evs_fake))) = 8 * 10 ^ 20) by vmr. assert (H2 : funds St (wrun w0 evs_fake) = 10 ^ 20) by vmr.
  rewrite H1, H2 in H. vm_compute in H. apply H. reflexivity.
Qed.
Print Assumptions C56_repointed_refuted.
