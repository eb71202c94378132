(** Props_WorldLog.v -- C81: the token's events tell all balances; C82: the lines about money. *)

From Verif Require Import WorldLog MVWitness Props_World Props_Token.

(** C81: adding up the events and the lines about closed accounts gives the balance of every account and the supply. *)
Theorem C81_replay :
  forall self owner n ms t0 tr, t_new self owner n ms = Ok t0 ->
    let ls := tlog_new owner n ++ tlog_of t0 tr in let t := t_run t0 tr in
    (forall a, balances_heard ls a = Z.of_N (ft_balance_of t a)) /\ supply_heard ls = Z.of_N (ft_total_supply t).
Proof. exact c81_replay. Qed.
Print Assumptions C81_replay.

(** The events alone are enough as long as nobody closes an account that holds tokens. *)
Theorem C81_events :
  forall self owner n ms t0 tr, t_new self owner n ms = Ok t0 -> no_forced tr ->
    let ls := List.filter is_event (tlog_new owner n ++ tlog_of t0 tr) in let t := t_run t0 tr in
    (forall a, balances_heard ls a = Z.of_N (ft_balance_of t a)) /\ supply_heard ls = Z.of_N (ft_total_supply t).
Proof.
  intros self owner n ms t0 tr H0 Hn. pose proof (c81_events self owner n ms t0 tr H0 Hn) as H. cbv zeta in *.
  enough (E : List.filter is_event (tlog_new owner n ++ tlog_of t0 tr) = filter (fun l => is_event l = true) (tlog_new owner n ++ tlog_of t0 tr)) by (rewrite E; exact H).
  generalize (tlog_new owner n ++ tlog_of t0 tr). intros l. clear. induction l as [|x l IH]; [reflexivity|]. cbn [List.filter].
  destruct (is_event x) eqn:E; [rewrite filter_cons_True by exact E|rewrite filter_cons_False by congruence]; congruence.
Qed.
Print Assumptions C81_events.

(** Closing an account with force burns its tokens without an event, and the events then tell too much. *)
Definition tok_h : tstate := match t_new "tok" "own" 100 5 with Ok t => t | Panic _ => mkTok "" [] 0 "" [] 0 end.
Lemma tok_h_new : t_new "tok" "own" 100 5 = Ok tok_h.
Proof. vm_compute. reflexivity. Qed.
Theorem C81_events_refuted :
  ~ (forall self owner n ms t0 tr, t_new self owner n ms = Ok t0 ->
       supply_heard (List.filter is_event (tlog_new owner n ++ tlog_of t0 tr)) = Z.of_N (ft_total_supply (t_run t0 tr))).
Proof.
  intros H. specialize (H _ _ _ _ _ [txc "own" 1 (TUnregister true)] tok_h_new). vm_compute in H. discriminate H.
Qed.
Print Assumptions C81_events_refuted.

(** C82, with the three contracts together: the mpDAO that meta-vote says it sent to an account, plus those whose report
    is still to come or was lost, are exactly those that the token says it moved from meta-vote to this account. *)
Theorem C82_sent :
  forall w0 evs v, wstart w0 -> Forall (not_mpdao w0) evs ->
    sum_by (says_sent Mp (only v)) (wlog w0 evs) + sum_by (unreported Mp (only v)) (w_pend (wrun w0 evs)) + lost Mp (only v) w0 evs
    = sum_by (says_moved (self_id (w_mv w0)) (only v)) (wtlog Mp w0 evs).
Proof. exact c82_sent. Qed.
Print Assumptions C82_sent.

(** the same for stNEAR, over all accounts (the line names the account that claims, the event the one that gets) *)
Theorem C82_sent_stnear :
  forall w0 evs, wstart w0 -> Forall (keeps_stnear w0) evs ->
    sum_by (says_sent St anyone) (wlog w0 evs) + sum_by (unreported St anyone) (w_pend (wrun w0 evs)) + lost St anyone w0 evs
    = sum_by (says_moved (self_id (w_mv w0)) anyone) (wtlog St w0 evs).
Proof. exact c82_sent_st. Qed.
Print Assumptions C82_sent_stnear.

(** What the lines say should be in the contract is there: deposits are covered by what it holds and what was sent. *)
Theorem C82_held :
  forall w0 evs, wstart w0 -> Forall (not_mpdao w0) evs ->
    let w := wrun w0 evs in
    sum_by says_deposit (wlog w0 evs) + in_flight Mp w
    <= funds Mp w + sum_by (says_sent Mp anyone) (wlog w0 evs) + sum_by (unreported Mp anyone) (w_pend w) + lost Mp anyone w0 evs.
Proof. exact c82_held. Qed.
Print Assumptions C82_held.

(** and the two tokens' lines tell all their balances, among them the contract's *)
Theorem C82_tokens :
  forall w0 evs k, wstart w0 -> exists owner n,
    let ls := tlog_new owner n ++ wtlog k w0 evs in let t := tok_of (wrun w0 evs) k in
    (forall a, ft_balance_of (tok_of w0 k) a = if decide (owner = a) then n else 0) /\
    (forall a, balances_heard ls a = Z.of_N (ft_balance_of t a)) /\ supply_heard ls = Z.of_N (ft_total_supply t).
Proof. exact c82_tokens. Qed.
Print Assumptions C82_tokens.

(** If the stNEAR address is pointed to the mpDAO token, mpDAO leaves without a line that says so. *)
Theorem C82_repointed_refuted :
  ~ (forall w0 evs v, wstart w0 ->
       sum_by (says_sent Mp (only v)) (wlog w0 evs) + sum_by (unreported Mp (only v)) (w_pend (wrun w0 evs)) + lost Mp (only v) w0 evs
       = sum_by (says_moved (self_id (w_mv w0)) (only v)) (wtlog Mp w0 evs)).
Proof.
  intros H. specialize (H w0 evs_repoint "bob" w0_start). revert H.
  assert (E : (sum_by (says_sent Mp (only "bob")) (wlog w0 evs_repoint) + sum_by (unreported Mp (only "bob")) (w_pend (wrun w0 evs_repoint))
     + lost Mp (only "bob") w0 evs_repoint =? sum_by (says_moved (self_id (w_mv w0)) (only "bob")) (wtlog Mp w0 evs_repoint)) = false) by (vm_compute; reflexivity).
  apply N.eqb_neq in E. exact E.
Qed.
Print Assumptions C82_repointed_refuted.

(** ** Examples *)
(** the history of C54: a forced closing, a refund to a closed account *)
Example C81_example :
  tlog_of tok_h tr_tok =
    [ EMint "min" 50; EMove "own" "bob" 30; EMove "bob" "app" 20; EClosed "bob" 10; EMove "own" "app" 5; EDeleted; EBurn "app" 7; EBurned "bob" 7;
      ERefund "app" "own" 5; EBurn "min" 8 ] /\
  map (balances_heard (tlog_new "own" 100 ++ tlog_of tok_h tr_tok)) ["own"; "min"; "bob"; "app"] = [70; 42; 0; 13]%Z /\
  supply_heard (tlog_new "own" 100 ++ tlog_of tok_h tr_tok) = 125%Z /\
  supply_heard (List.filter is_event (tlog_new "own" 100 ++ tlog_of tok_h tr_tok)) = 135%Z.
Proof. vm_compute. auto. Qed.

(** withdrawals and refunds of C06, carried out; bob's last report is lost *)
Definition evs_told : list wev :=
  evs_out ++ [ run1 0; run1 1; run1 1; umv1 "bob" (6 + 30 * DAY) (Withdraw [] (M 2)); run1 2; fail1 2; run1 0; run1 0 ].
Example C82_example :
  Forall (not_mpdao w0) evs_told /\
  filter (fun l => says_sent Mp anyone l <> 0 \/ says_sent St anyone l <> 0 \/ says_deposit l <> 0) (wlog w0 evs_told) =
    [LDeposit (M 10) "bob"; LDeposit (M 100) "alice"; LSent (M 3) "bob"; LStSent "bob" (10 ^ 19)] /\
  lost Mp (only "bob") w0 evs_told = M 2 /\ sum_by (says_moved "mv.near" (only "bob")) (wtlog Mp w0 evs_told) = M 5.
Proof. split; [unfold evs_told, evs_out, evs_setup; repeat constructor|]. vm_compute. auto. Qed.
