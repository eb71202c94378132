(** Props_Money.v -- C05, C07, C16-C19, C37, C55: tokens owed, rewards and deposits. *)

From Verif Require Import MVMoney MVRefuted.

(** C05: every call in every reachable state. *)
Theorem C05_mpdao_conserved :
  forall a s0 tr x s' e, mv_new a = Ok s0 ->
    exec x.1 (run s0 tr) x.2 = Ok (s', e) -> imports x = false ->
    mp_owed s' + mp_sent e = mp_owed (run s0 tr) + mp_received (run s0 tr) x.
Proof. intros a s0 tr x s' e H0. apply c05. eapply voter_ids_nodup; exact H0. Qed.
Print Assumptions C05_mpdao_conserved.

(** ... and the exact size of the exception. *)
Theorem C05_imports :
  forall a s0 tr x s' e, mv_new a = Ok s0 ->
    exec x.1 (run s0 tr) x.2 = Ok (s', e) ->
    mp_owed s' + mp_sent e + import_out (run s0 tr) x
    = mp_owed (run s0 tr) + mp_received (run s0 tr) x + import_in x.
Proof. intros a s0 tr x s' e H0 H. eapply c05_general; [eapply voter_ids_nodup; exact H0|exact H]. Qed.
Print Assumptions C05_imports.

Definition eff_of (s : state) (x : call) : list eff :=
  match exec x.1 s x.2 with Ok (_, e) => e | Panic _ => [] end.
Example C05_example :
  all_ok s0 tr_demo = true /\
  let s := run s0 (firstn 19 tr_demo) in
  let x := usr1 "b.near" (90 * DAY + 10) WithdrawAll in
  mp_owed s = M 267 /\ mp_sent (eff_of s x) = M 70 /\ mp_owed (step s x) = M 197 /\
  "b.near" ∉ voter_ids (step s x).
Proof. conj; [vmr|vmr|vmr|vmr|]. vm_compute. intros H. repeat (inversion H as [|? ? ? H1]; subst; clear H; rename H1 into H). Qed.

(** C55: the same for stNEAR. *)
Theorem C55_stnear_conserved :
  forall a s0 tr x s' e, mv_new a = Ok s0 ->
    exec x.1 (run s0 tr) x.2 = Ok (s', e) ->
    ci_uncl_st (get_contract_info s') + st_sent e
    = ci_uncl_st (get_contract_info (run s0 tr)) + st_received (run s0 tr) x.
Proof. intros a s0 tr x s' e H0. apply c05_st. apply CIs_run. eapply CIs_init; exact H0. Qed.
Print Assumptions C55_stnear_conserved.

Example C55_example :
  let s := run s0 (firstn 14 tr_demo) in
  let x := usr "a.near" 13 (ClaimStnear st_unit) in
  ci_uncl_st (get_contract_info s) = 3 * st_unit /\ st_sent (eff_of s x) = st_unit /\
  ci_uncl_st (get_contract_info (step s x)) = 2 * st_unit.
Proof. conj; vmr. Qed.

(** C07 *)
Theorem C07_failed_transfer_restores :
  forall c s vid amount,
    c_pred c = self_id s -> c_deposit c = 0 -> raw_balance s vid + amount < 2 ^ 128 ->
    exists s', exec c s (AfterMp vid amount false) = Ok (s', []) /\
      raw_balance s' vid = raw_balance s vid + amount /\
      vid ∈ voter_ids s' /\
      (forall w, w <> vid -> raw_balance s' w = raw_balance s w) /\
      (forall now w, get_all_locking_positions now s' w = get_all_locking_positions now s w) /\
      (forall w, get_available_voting_power s' w = get_available_voting_power s w) /\
      (forall w a o, get_votes_for_object s' w a o = get_votes_for_object s w a o) /\
      s' = s <| voters := voters s' |>.
Proof. exact c07_restore. Qed.
Print Assumptions C07_failed_transfer_restores.

Theorem C07_success_changes_nothing :
  forall c s vid amount s' e, exec c s (AfterMp vid amount true) = Ok (s', e) -> s' = s /\ e = [].
Proof. exact c07_success. Qed.
Print Assumptions C07_success_changes_nothing.

Theorem C07_private :
  forall c s vid amount ok r, exec c s (AfterMp vid amount ok) = Ok r -> c_pred c = self_id s.
Proof. exact c07_private. Qed.
Print Assumptions C07_private.

(** A withdrawal asks for one transfer, to the caller, of exactly what it takes from the books;
    so with [C07_failed_transfer_restores] a failed withdrawal is neutral. *)
Theorem C07_withdrawal_amount :
  forall a s0 tr x s' e, mv_new a = Ok s0 ->
    (exists l n, x.2 = Withdraw l n) \/ x.2 = WithdrawAll ->
    exec x.1 (run s0 tr) x.2 = Ok (s', e) ->
    exists total, e = [PayMp (c_pred x.1) total] /\ 0 < total /\
      let v := c_pred x.1 in
      let s := run s0 tr in
      raw_balance s' v + positions_amount s' v + total = raw_balance s v + positions_amount s v /\
      (forall w, w <> v -> raw_balance s' w = raw_balance s w /\ positions_amount s' w = positions_amount s w).
Proof. intros a s0 tr x s' e H0. apply c07_withdrawal. eapply voter_ids_nodup; exact H0. Qed.
Print Assumptions C07_withdrawal_amount.

(** b.near withdrew everything and was removed; the transfer fails and b.near is back *)
Example C07_example :
  let s := run s0 (firstn 20 tr_demo) in
  let x := (cx "mv.near" 0 (90 * DAY + 11), AfterMp "b.near" (M 70) false) in
  bool_decide ("b.near" ∈ voter_ids s) = false /\
  panics (exec x.1 s x.2) = false /\ raw_balance (step s x) "b.near" = M 70 /\
  panics (exec (cx "b.near" 0 5) s (AfterMp "b.near" (M 70) false)) = true.
Proof. conj; vmr. Qed.

(** C16 *)
Theorem C16_unclaimed_totals :
  forall a s0 tr, mv_new a = Ok s0 -> claims_match (run s0 tr).
Proof. exact c16. Qed.
Print Assumptions C16_unclaimed_totals.

(** distributed so far = unclaimed + claimed (net of failed stNEAR transfers) *)
Theorem C16_accumulated :
  forall a s0 tr, mv_new a = Ok s0 ->
    let i := get_contract_info (run s0 tr) in
    ci_uncl_mp i + run_sum mp_claimed_all s0 tr = ci_accum_mp i /\
    ci_uncl_st i + run_sum st_claimed_all s0 tr = ci_accum_st i + run_sum st_restored_all s0 tr.
Proof. exact c16_totals. Qed.
Print Assumptions C16_accumulated.

Example C16_example :
  let s := run s0 tr_demo in
  get_claims s 0 5 = Ok [("c.near", M 20)] /\ get_total_unclaimed_mpdao s = M 20 /\
  get_stnear_claims s 0 5 = Ok [("b.near", 2 * st_unit)] /\
  ci_uncl_st (get_contract_info s) = 2 * st_unit /\ ci_accum_st (get_contract_info s) = 3 * st_unit.
Proof. conj; vmr. Qed.

(** C17 *)
Theorem C17_distribution_exact :
  forall c s sender amount msg s' e rest,
    after_prefix "for-claims:" msg = Some rest ->
    exec c s (FtOnTransfer sender amount msg) = Ok (s', e) ->
    exists l, c_json_claims c rest = Some l /\ Forall (fun p => 0 < p.2) l /\
      let i := get_contract_info s in let i' := get_contract_info s' in
      ((c_pred c = ci_mpdao i /\
        distributed mp_unit amount l (get_claimable_mpdao s) (get_claimable_mpdao s')
          (ci_uncl_mp i) (ci_uncl_mp i') (ci_accum_mp i) (ci_accum_mp i') /\
        s' = s <| claim_mp := claim_mp s' |> <| uncl_mp := uncl_mp s' |> <| accum_mp := accum_mp s' |>) \/
       (c_pred c = ci_stnear i /\
        distributed st_unit amount l (get_claimable_stnear s) (get_claimable_stnear s')
          (ci_uncl_st i) (ci_uncl_st i') (ci_accum_st i) (ci_accum_st i') /\
        s' = s <| claim_st := claim_st s' |> <| uncl_st := uncl_st s' |> <| accum_st := accum_st s' |>)).
Proof. exact c17_exact. Qed.
Print Assumptions C17_distribution_exact.

(** Conversely an exact list of positive amounts is accepted (unless a total overflows u128). The
    12th byte of the message must not be in the middle of a character, which holds for text. *)
Theorem C17_exact_list_accepted :
  forall a s0 tr c sender amount msg rest l, mv_new a = Ok s0 -> let s := run s0 tr in
    after_prefix "for-claims:" msg = Some rest -> char_boundary 11 msg = true ->
    c_json_claims c rest = Some l -> Forall (fun p => 0 < p.2 < 2 ^ 64) l -> c_deposit c = 0 ->
    let i := get_contract_info s in
    ((c_pred c = ci_mpdao i /\ amount = mp_unit * sum_by snd l /\
      ci_uncl_mp i + amount < 2 ^ 128 /\ ci_accum_mp i + amount < 2 ^ 128) \/
     (c_pred c <> ci_mpdao i /\ c_pred c = ci_stnear i /\ amount = st_unit * sum_by snd l /\
      ci_uncl_st i + amount < 2 ^ 128 /\ ci_accum_st i + amount < 2 ^ 128)) ->
    exists s', exec c s (FtOnTransfer sender amount msg) = Ok (s', []).
Proof.
  intros a s0 tr c sender amount msg rest l H0. cbv zeta. apply c17_accepted. apply CIs_run. eapply CIs_init; exact H0.
Qed.
Print Assumptions C17_exact_list_accepted.

Example C17_example :
  let s := run s0 (firstn 11 tr_demo) in
  let l := [("a.near", 10); ("c.near", 20); ("a.near", 5)] in
  let x := claims "mpdao.near" (M 35) l 10 in
  panics (exec x.1 s x.2) = false /\ get_claimable_mpdao (step s x) "a.near" = M 15 /\
  let y := claims "mpdao.near" (M 35 + 1) l 10 in panics (exec y.1 s y.2) = true /\
  let z := claims "other.near" (M 35) l 10 in panics (exec z.1 s z.2) = true.
Proof. conj; vmr. Qed.

(** C18 *)
Theorem C18_claims_bounded :
  forall a s0 tr, mv_new a = Ok s0 -> forall acct,
    run_sum (mp_claimed acct) s0 tr + get_claimable_mpdao (run s0 tr) acct = run_sum (mp_given acct) s0 tr /\
    run_sum (st_claimed acct) s0 tr + get_claimable_stnear (run s0 tr) acct
      = run_sum (st_given acct) s0 tr + run_sum (st_restored acct) s0 tr.
Proof. exact c18_run. Qed.
Print Assumptions C18_claims_bounded.

(** and up to the claimable amount a stNEAR claim is paid *)
Theorem C18_stnear_claim_paid :
  forall a s0 tr c amount, mv_new a = Ok s0 -> let s := run s0 tr in
    c_deposit c = 0 -> amount <= get_claimable_stnear s (c_pred c) ->
    exists s', exec c s (ClaimStnear amount)
               = Ok (s', [PaySt (ci_stnear (get_contract_info s)) (c_pred c) (c_pred c) amount]).
Proof. intros a s0 tr c amount H0. cbv zeta. apply c18_claim_stnear. apply CIs_run. eapply CIs_init; exact H0. Qed.
Print Assumptions C18_stnear_claim_paid.

Example C18_example :
  run_sum (mp_given "a.near") s0 tr_demo = M 10 /\ run_sum (mp_claimed "a.near") s0 tr_demo = M 10 /\
  run_sum (st_given "b.near") s0 tr_demo = 2 * st_unit /\
  get_claimable_stnear (run s0 tr_demo) "b.near" = 2 * st_unit /\
  panics (exec (cx "b.near" 0 20) (run s0 tr_demo) (ClaimStnear (2 * st_unit))) = false /\
  panics (exec (cx "b.near" 0 20) (run s0 tr_demo) (ClaimStnear (2 * st_unit + 1))) = true.
Proof. conj; vmr. Qed.

(** C19: true of registered voters ... *)
Theorem C19_voter_can_lock :
  forall a s0 tr c amount days, mv_new a = Ok s0 -> let s := run s0 tr in
    c_pred c ∈ voter_ids s -> c_deposit c = 0 ->
    amount <= get_claimable_mpdao s (c_pred c) -> lockable s (c_pred c) amount days ->
    exists s', exec c s (ClaimAndLock amount days) = Ok (s', []).
Proof. intros a s0 tr c amount days H0. cbv zeta. apply c19_voter. apply CIs_run. eapply CIs_init; exact H0. Qed.
Print Assumptions C19_voter_can_lock.

(** ... but not of the others, even those that were voters when the reward was given. *)
Theorem C19_refuted :
  ~ (forall a s0 tr c amount days, mv_new a = Ok s0 -> timed tr -> let s := run s0 tr in
       c_deposit c = 0 -> amount <= get_claimable_mpdao s (c_pred c) -> lockable s (c_pred c) amount days ->
       exists s', exec c s (ClaimAndLock amount days) = Ok (s', [])).
Proof. exact r_c19. Qed.
Print Assumptions C19_refuted.

Definition tr_lock : list call := firstn 12 tr_demo.
Example C19_example :
  "a.near" ∈ voter_ids (run s0 tr_lock) /\ get_claimable_mpdao (run s0 tr_lock) "a.near" = M 10 /\
  lockable (run s0 tr_lock) "a.near" (M 10) 60.
Proof.
  split; [|split]; [|vmr|].
  - assert (E : voter_ids (run s0 tr_lock) = ["a.near"; "b.near"]) by vmr. rewrite E. left.
  - unfold lockable. cbv zeta. split; [vm_compute; discriminate|]. split; [split; vm_compute; discriminate|].
    split; [vmr|]. split; [left; vmr|]. conj; vmr.
Qed.

(** C37 *)
Theorem C37_deposits :
  forall c s sender amount msg s' e w,
    exec c s (FtOnTransfer sender amount msg) = Ok (s', e) ->
    get_all_locking_positions 0 s' w <> get_all_locking_positions 0 s w ->
    let i := get_contract_info s in
    e = [] /\ c_pred c = ci_mpdao i /\ ci_min_deposit i <= amount /\
    (exists days, ci_min_unbond i <= days <= ci_max_unbond i /\
      ((u16_text msg days /\ w = sender) \/
       ((forall d, ~ u16_text msg d) /\ c_json_pair c msg = Some (w, days) /\ sender = ci_owner i)) /\
      amount_at s' w days = amount_at s w days + amount /\
      (forall d, d <> days -> amount_at s' w d = amount_at s w d)) /\
    positions_amount s' w = positions_amount s w + amount /\
    (forall u, u <> w -> get_all_locking_positions 0 s' u = get_all_locking_positions 0 s u).
Proof. exact c37. Qed.
Print Assumptions C37_deposits.

(** the amount reported back as unused is always 0 *)
Theorem C37_consumed :
  forall c s sender amount msg s' unused, ft_on_transfer c s sender amount msg = Ok (s', unused) -> unused = 0.
Proof. exact c37_consumed. Qed.
Print Assumptions C37_consumed.

(** the period is read as an unsigned 16-bit decimal number *)
Theorem C37_period_text : forall msg d, parse_u16 msg = Some d <-> u16_text msg d.
Proof. exact parse_u16_spec. Qed.
Print Assumptions C37_period_text.

Example C37_example :
  let s := run s0 tr_demo in
  let x := dep "z.near" 3 "+60" 500 in
  panics (exec x.1 s x.2) = false /\ positions_amount (step s x) "z.near" = M 3 /\
  (let y := (cx "other.near" 0 500, FtOnTransfer "z.near" (M 3) "60") in panics (exec y.1 s y.2) = true) /\
  (let y := (cx "mpdao.near" 0 500, FtOnTransfer "z.near" (M 1 - 1) "60") in panics (exec y.1 s y.2) = true) /\
  let jp (_ : string) := Some ("w.near", 90) in
  let c := mkCtx "mpdao.near" "mpdao.near" 0 500 jp (fun _ => None) in
  panics (exec c s (FtOnTransfer "z.near" (M 3) "[..]")) = true /\
  positions_amount (step s (c, FtOnTransfer "own.near" (M 3) "[..]")) "w.near" = M 3.
Proof. conj; vmr. Qed.
