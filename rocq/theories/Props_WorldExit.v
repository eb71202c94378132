(** Props_WorldExit.v -- C87: everything an account has in the contract can be brought back to its wallet. *)

From Verif Require Import WorldExit MVWitness MVRefuted Props_World Props_Exit Props_Small.

(** C57 down to the token ledger.  At any time [t] the account can make some calls (withdrawing votes, unlocking positions) that
    all succeed; then, whatever else happens in the meantime, one [withdraw_all] 3600 days later brings its whole balance and all
    its positions to its wallet as soon as the transfer's receipt is executed. *)
Theorem C87_exit :
  forall w0 evs a t, wstart w0 -> Forall (calm Mp w0) evs -> is_contract w0 a = false ->
  let h := heard w0 evs in
  collision_free h -> no_zero_votes h -> along (own_unlocks_locked a) (w_mv w0) h -> Forall (fun x : call => c_ts x.1 <= t) h ->
  let w := wrun w0 evs in
  (forall ad ob, ~ lock_in_applies (w_mv w) (t / 1000000) ad ob) ->
  let owned := raw_balance (w_mv w) a + positions_amount (w_mv w) a in 0 < owned ->
  exists l, Forall (exit_call a t) l /\ along succeeds (w_mv w) l /\
    let w1 := wrun w (map EMv l) in
    forall evs2 c c' ans, Forall (calm Mp w0) evs2 -> Forall (fun x => call_target x <> a) (heard w1 evs2) ->
      let w2 := wrun w1 evs2 in
      t_registered (w_mp w2) a = true -> c_pred c = a -> c_deposit c = 1 -> t + days_3600 <= c_ts c ->
      let w3 := wrun w2 [EMv (c, WithdrawAll); ERun (length (w_pend w2)) c' false ans] in
      ft_balance_of (w_mp w3) a = ft_balance_of (w_mp w2) a + owned /\ a ∉ voter_ids (w_mv w3).
Proof. exact c87_exit. Qed.
Print Assumptions C87_exit.

(** stNEAR rewards at any time *)
Theorem C87_claim :
  forall w0 evs a n c c' ans, wstart w0 -> Forall (calm St w0) evs -> is_contract w0 a = false ->
  let w := wrun w0 evs in
  0 < n <= get_claimable_stnear (w_mv w) a -> t_registered (w_st w) a = true -> c_pred c = a -> c_deposit c = 0 ->
  let w' := wrun w [EMv (c, ClaimStnear n); ERun (length (w_pend w)) c' false ans] in
  ft_balance_of (w_st w') a = ft_balance_of (w_st w) a + n /\
  get_claimable_stnear (w_mv w') a + n = get_claimable_stnear (w_mv w) a.
Proof. exact c87_claim. Qed.
Print Assumptions C87_claim.

(** With mirrored positions the withdrawal may find the contract without tokens. *)
Definition evs_broke : list wev :=
  [ tcx Mp "own.near" 5 (TStorageDeposit (Some "mv.near")); tcx Mp "own.near" 5 (TStorageDeposit (Some "0xabc.evmp.near"));
    umv "opr.near" 2 (MirrorLps "0xabc" [(30, M 5)]); umv "0xabc.evmp.near" 3 (Unlock 0) ].
Theorem C87_imports_refuted :
  ~ (forall w0 evs a c c' ans, wstart w0 -> Forall (not_mpdao w0) evs -> is_contract w0 a = false ->
     let w := wrun w0 evs in
     t_registered (w_mp w) a = true -> c_pred c = a -> c_deposit c = 1 ->
     Forall (fun j => is_unlocked (now_ms c) j = true) (v_lps (get_voter (w_mv w) a)) ->
     let owned := raw_balance (w_mv w) a + positions_amount (w_mv w) a in 0 < owned ->
     let w3 := wrun w [EMv (c, WithdrawAll); ERun (length (w_pend w)) c' false ans] in
     ft_balance_of (w_mp w3) a = ft_balance_of (w_mp w) a + owned).
Proof.
  intros H. set (c := cx "0xabc.evmp.near" 1 (40 * DAY)). specialize (H w0 evs_broke "0xabc.evmp.near" c (cx "" 0 1) None w0_start).
  assert (E1 : v_lps (get_voter (w_mv (wrun w0 evs_broke)) "0xabc.evmp.near") = [mkLpos (M 5) 30 (M 5 * 10 ^ 18 / 2) (Some 3)]) by vmr.
  assert (E2 : raw_balance (w_mv (wrun w0 evs_broke)) "0xabc.evmp.near" + positions_amount (w_mv (wrun w0 evs_broke)) "0xabc.evmp.near" = M 5) by vmr.
  assert (E3 : ft_balance_of (w_mp (wrun w0 evs_broke)) "0xabc.evmp.near" = 0) by vmr.
  assert (E4 : ft_balance_of (w_mp (wrun (wrun w0 evs_broke) [EMv (c, WithdrawAll); ERun (length (w_pend (wrun w0 evs_broke))) (cx "" 0 1) false None])) "0xabc.evmp.near" = 0) by vmr.
  assert (E5 : t_registered (w_mp (wrun w0 evs_broke)) "0xabc.evmp.near" = true) by vmr.
  assert (E6 : Forall (not_mpdao w0) evs_broke) by (unfold evs_broke; repeat constructor).
  assert (E7 : is_contract w0 "0xabc.evmp.near" = false) by vmr.
  cbv zeta in H. rewrite E1, E2, E3, E4 in H. specialize (H E6 E7 E5 eq_refl eq_refl).
  assert (0 = 0 + M 5) as E; [|clear -E; vm_compute in E; discriminate E].
  apply H; [|vmr]. apply List.Forall_cons; [vmr|apply List.Forall_nil].
Qed.
Print Assumptions C87_imports_refuted.

(** ** Examples *)
(** alice has two votes and a locked position; bob and the owner act while it unlocks *)
Definition evs_alice : list wev :=
  evs_setup ++ [ umv "alice" 2 (Vote (V 3) "A" "o1"); umv "alice" 2 (Vote (V 4) "B" "o2"); umv "bob" 2 (Vote (V 1) "A" "o1") ].
Definition exit_alice : list call :=
  map (fun o => (exit_ctx "alice" (400 * DAY * 1000000), o)) [Unvote "B" "o2"; Unvote "A" "o1"; Unlock 0].
Definition evs_mid : list wev :=
  [ umv "bob" (500 * DAY) (Unvote "A" "o1"); umv "bob" (500 * DAY) (Unlock 0); tcx Mp "own.near" 1 (TTransferCall "mv.near" (M 9) "30"); run1 0;
    umv1 "own.near" (501 * DAY) (UpdateMaxUnbond 60) ].
Lemma ts_of (t : N) tr : forallb (fun x : call => c_ts x.1 <=? t) tr = true -> Forall (fun x : call => c_ts x.1 <= t) tr.
Proof. intros H. apply List.Forall_forall. intros x Hx. apply N.leb_le. exact (proj1 (forallb_forall _ _) H x Hx). Qed.
Lemma target_of a tr : forallb (fun x => negb (bool_decide (call_target x = a))) tr = true -> Forall (fun x => call_target x <> a) tr.
Proof. intros H. apply List.Forall_forall. intros x Hx. pose proof (proj1 (forallb_forall _ _) H x Hx) as E. cbn beta in E. case_bool_decide; [discriminate|assumption]. Qed.
Example C87_example :
  Forall (calm Mp w0) evs_alice /\ Forall (calm St w0) evs_alice /\ is_contract w0 "alice" = false /\ is_contract w0 "bob" = false /\
  (let h := heard w0 evs_alice in
   collision_free h /\ no_zero_votes h /\ along (own_unlocks_locked "alice") (w_mv w0) h /\ Forall (fun x : call => c_ts x.1 <= 400 * DAY * 1000000) h) /\
  (let w := wrun w0 evs_alice in
   (forall ad ob, ~ lock_in_applies (w_mv w) (400 * DAY * 1000000 / 1000000) ad ob) /\
   raw_balance (w_mv w) "alice" + positions_amount (w_mv w) "alice" = M 100 /\ used_or0 (w_mv w) "alice" = V 7 /\
   Forall (exit_call "alice" (400 * DAY * 1000000)) exit_alice /\ all_ok (w_mv w) exit_alice = true /\
   let w1 := wrun w (map EMv exit_alice) in
   Forall (calm Mp w0) evs_mid /\ Forall (fun x => call_target x <> "alice") (heard w1 evs_mid) /\
   let w2 := wrun w1 evs_mid in
   t_registered (w_mp w2) "alice" = true /\ ft_balance_of (w_mp w2) "alice" = 0 /\ length (w_pend w2) = 1%nat /\
   ft_balance_of (w_mp (wrun w2 [umv1 "alice" (4000 * DAY) WithdrawAll; run1 1])) "alice" = M 100) /\
  (let w := wrun w0 evs_alice in
   get_claimable_stnear (w_mv w) "bob" = 10 ^ 20 /\ t_registered (w_st w) "bob" = true /\
   ft_balance_of (w_st (wrun w [umv "bob" 3 (ClaimStnear (10 ^ 19)); run1 0])) "bob" = 10 ^ 19).
Proof.
  assert (E : get_lock_in_vote_filters (w_mv (wrun w0 evs_alice)) = (0, None, 0)) by vmr.
  split; [unfold evs_alice, evs_setup; repeat constructor|]. split; [unfold evs_alice, evs_setup; repeat constructor|].
  split; [vmr|]. split; [vmr|]. split.
  { split; [apply cf_of; vmr|]. split; [apply nz_of; vmr|]. split; [apply own_ok_along; vmr|apply ts_of; vmr]. }
  split; [|conj; vmr]. split.
  { intros ad ob. unfold lock_in_applies. rewrite E. intros (_ & H & _). discriminate. }
  split; [vmr|]. split; [vmr|]. split.
  { unfold exit_alice. cbn [map]. repeat (apply List.Forall_cons; [split; [reflexivity|cbn [snd]; first [left; eexists _, _; reflexivity|right; eexists; reflexivity]]|]). apply List.Forall_nil. }
  split; [vmr|]. split; [unfold evs_mid; repeat constructor|]. split; [apply target_of; vmr|]. conj; vmr.
Qed.
