(** MVExit.v -- getting everything out of the contract (C57), and tokens that can never be
    unlocked (second half of C57). *)

From Verif Require Export MVIso MVTime MVClear MVSpecExit.

(** ** Accounting for one account *)
Definition only (vid : string) : string -> option N := fun w => if decide (w = vid) then None else Some 0.

Lemma only_0 vid w d : only vid w = Some d -> d = 0.
Proof. unfold only. destruct (decide _); congruence. Qed.

Lemma inv_run_voter a s0 tr vid :
  mv_new a = Ok s0 -> collision_free tr -> along (own_unlocks_locked vid) s0 tr ->
  Inv (only vid) (targetsP tr) (run s0 tr).
Proof.
  intros Hn Hc Ha.
  apply (along_inv (own_unlocks_locked vid) (Inv (only vid) (targetsP tr)));
    [exact Ha|eapply inv_init; [apply only_0|exact Hn]|].
  intros x s s' e Hin HQ HI He. eapply inv_exec; eauto using targets_injP, only_0.
  - intros [v ad] Ht. eapply In_vote_targets; eauto.
  - unfold only. destruct (decide (c_pred x.1 = vid)) as [E|]; [|discriminate]. intros _. exact (HQ E).
Qed.

Lemma accounted_one a s0 tr vid :
  mv_new a = Ok s0 -> collision_free tr -> along (own_unlocks_locked vid) s0 tr ->
  exists u, get_used_voting_power (run s0 tr) vid = Ok u /\
    get_available_voting_power (run s0 tr) vid + u = locked_power (run s0 tr) vid.
Proof.
  intros Hn Hc Ha. destruct (inv_used _ _ _ vid (inv_run_voter a s0 tr vid Hn Hc Ha)) as (u & Hu & _ & Hb).
  exists u. split; [exact Hu|]. unfold only in Hb. rewrite decide_True in Hb by reflexivity. exact Hb.
Qed.

Lemma along_app Q s l1 l2 : along Q s (l1 ++ l2) <-> along Q s l1 /\ along Q (run s l1) l2.
Proof.
  revert s. induction l1 as [|x l1 IH]; intros s; cbn [app along]; [tauto|].
  rewrite IH. change (run s (x :: l1)) with (run (step s x) l1). tauto.
Qed.

(** ** Phase 1: all votes can be withdrawn *)
Lemma used_pos P hp hv vid h L :
  vexact P hp hv vid h L -> 0 < used L -> exists a o, 0 < lvotes L a o.
Proof.
  intros HX Hp. destruct L as [|[a [hh m]] L'] eqn:EL; [unfold used in Hp; rewrite sum_by_nil in Hp; lia|].
  assert (Hg : om_get L a = Some (hh, m)) by (rewrite EL; cbn; rewrite decide_True; reflexivity).
  rewrite <- EL in *. destruct (ve_in _ _ _ _ _ _ HX _ _ _ Hg) as (_ & Hne & Hpos).
  destruct m as [|[o x] m]; [contradiction|].
  specialize (Hpos o x). cbn in Hpos. rewrite decide_True in Hpos by reflexivity. specialize (Hpos eq_refl).
  exists a, o. unfold lvotes. rewrite Hg. cbn. rewrite decide_True by reflexivity. exact Hpos.
Qed.

Lemma targets_snoc_unvote tr c a o : vote_targets (tr ++ [(c, Unvote a o)]) = vote_targets tr.
Proof. unfold vote_targets. rewrite omap_app. apply app_nil_r. Qed.

Lemma collision_free_targets tr tr' : vote_targets tr' = vote_targets tr -> collision_free tr -> collision_free tr'.
Proof. unfold collision_free. intros ->. auto. Qed.

Section Exit.
Context (a : init_args) (s0 : state) (vid : string) (t : N) (Hn : mv_new a = Ok s0).
Let c0 := exit_ctx vid t.

Lemma exit_votes : forall n tr,
  collision_free tr -> no_zero_votes tr -> along (own_unlocks_locked vid) s0 tr ->
  (forall ad ob, ~ lock_in_applies (run s0 tr) (now_ms c0) ad ob) ->
  used_or0 (run s0 tr) vid = n ->
  exists l, Forall (exit_call vid t) l /\ along succeeds (run s0 tr) l /\
    get_available_voting_power (run s0 (tr ++ l)) vid = locked_power (run s0 (tr ++ l)) vid /\
    raw_balance (run s0 (tr ++ l)) vid = raw_balance (run s0 tr) vid /\
    positions_amount (run s0 (tr ++ l)) vid = positions_amount (run s0 tr) vid.
Proof.
  intros n. induction (N.lt_wf_0 n) as [n _ IH]. intros tr Hc Hz Ha Hlk Hu.
  destruct (accounted_one a s0 tr vid Hn Hc Ha) as (u & Eu & Hacc).
  assert (u = n) as -> by (unfold used_or0 in Hu; rewrite Eu in Hu; exact Hu).
  destruct (N.eq_dec n 0) as [->|Hn0].
  { exists []. rewrite app_nil_r. split; [constructor|]. split; [exact I|]. split; [lia|]. auto. }
  pose proof (sinv_run a s0 tr Hn Hc Hz) as HS.
  destruct (si_ex _ _ HS vid) as [L HX].
  assert (EL : used L = n).
  { destruct (inv_used _ _ _ vid (si_inv _ _ HS)) as (u & Eu' & Er & _).
    rewrite Eu in Eu'. injection Eu' as <-. rewrite Er. symmetry. apply (used_raw_rep _ _ _ _ _ (ve_rep _ _ _ _ _ _ HX)). }
  destruct (used_pos _ _ _ _ _ _ HX ltac:(lia)) as (ad & ob & Hpos).
  pose proof (get_votes_exact _ _ _ _ ad ob HX) as Hx.
  destruct (c29_unvote a s0 tr c0 ad ob _ Hn Hc Hz Hx Hpos (Hlk ad ob) eq_refl) as (s' & He & Hch).
  set (x := (c0, Unvote ad ob)). set (tr' := tr ++ [x]).
  assert (Hs' : run s0 tr' = s').
  { unfold tr'. rewrite run_app. cbn [run fold_left]. unfold step, x. cbn [fst snd]. rewrite He. reflexivity. }
  assert (Hc' : collision_free tr').
  { eapply collision_free_targets; [|exact Hc]. apply targets_snoc_unvote. }
  assert (Hz' : no_zero_votes tr').
  { unfold tr', no_zero_votes. apply Forall_app. split; [exact Hz|]. constructor; [exact I|constructor]. }
  assert (Ha' : along (own_unlocks_locked vid) s0 tr').
  { unfold tr'. apply along_app. split; [exact Ha|]. cbn [along]. split; [intros _; exact I|exact I]. }
  destruct Hch as (_ & _ & _ & Hav & (_ & _ & _ & Hrb & Hgl & _ & Hrest)). cbn [c_pred c0 exit_ctx] in Hav.
  assert (Hlp : locked_power s' vid = locked_power (run s0 tr) vid).
  { unfold locked_power. rewrite Hgl. reflexivity. }
  destruct (accounted_one a s0 tr' vid Hn Hc' Ha') as (u' & Eu' & Hacc'). rewrite Hs' in *.
  destruct (IH u' ltac:(lia) tr' Hc' Hz' Ha') as (l & Hl & Hok & H1 & H2 & H3).
  { intros ad' ob'. rewrite Hs'. intros Hl. apply (Hlk ad' ob'). revert Hl.
    unfold lock_in_applies, get_lock_in_vote_filters. rewrite Hrest. exact id. }
  { rewrite Hs'. unfold used_or0. rewrite Eu'. reflexivity. }
  exists (x :: l). replace (tr ++ x :: l) with (tr' ++ l) by (unfold tr'; rewrite <- app_assoc; reflexivity).
  split; [constructor; [split; [reflexivity|left; exists ad, ob; reflexivity]|exact Hl]|].
  split. { cbn [along]. split; [exists (s', []); exact He|]. rewrite Hs' in Hok.
    unfold step, x. cbn [fst snd]. rewrite He. exact Hok. }
  split; [exact H1|]. rewrite Hs' in H2, H3. split; [rewrite H2; apply Hrb|].
  rewrite H3. unfold positions_amount. rewrite Hgl. reflexivity.
Qed.

(** ** Phase 2: all positions can be unlocked *)
Definition nlocked (l : list lpos) : nat := length (List.filter is_locked l).

Lemma nlocked_0 l : nlocked l = O -> Forall (fun p => is_locked p = false) l.
Proof.
  unfold nlocked. induction l as [|p l IH]; [constructor|]. simpl.
  destruct (is_locked p) eqn:E; [discriminate|]. intros H. constructor; auto.
Qed.

Lemma nlocked_find l n : nlocked l = S n ->
  exists i p, l !! i = Some p /\ is_locked p = true /\
    forall q, is_locked q = false -> nlocked (<[i := q]> l) = n.
Proof.
  revert n. induction l as [|p l IH]; intros n; [discriminate|]. unfold nlocked. simpl.
  destruct (is_locked p) eqn:E; simpl.
  - intros H. injection H as H. exists O, p. split; [reflexivity|]. split; [exact E|].
    intros q Hq. simpl. rewrite Hq. exact H.
  - intros H. destruct (IH n H) as (i & q & H1 & H2 & H3). exists (S i), q. split; [exact H1|]. split; [exact H2|].
    intros r Hr. simpl. rewrite E. apply H3. exact Hr.
Qed.

Lemma exit_unlocks : forall n s,
  nlocked (v_lps (get_voter s vid)) = n ->
  get_available_voting_power s vid = locked_power s vid ->
  exists l, Forall (exit_call vid t) l /\ along succeeds s l /\
    nlocked (v_lps (get_voter (run s l) vid)) = O /\
    raw_balance (run s l) vid = raw_balance s vid /\
    positions_amount (run s l) vid = positions_amount s vid.
Proof.
  induction n as [|n IH]; intros s Hk Hav.
  { exists []. split; [constructor|]. split; [exact I|]. auto. }
  destruct (nlocked_find _ _ Hk) as (i & p & Hl & Hlk & Hins).
  rewrite locked_power_eq in Hav. unfold get_available_voting_power in Hav.
  destruct (om_get (voters s) vid) as [v|] eqn:Ev.
  2:{ exfalso. unfold get_voter in Hl. rewrite Ev in Hl. discriminate. }
  pose proof (get_voter_Some _ _ _ Ev) as Eg. rewrite Eg in *.
  set (q := mkLpos (lp_amount p) (lp_days p) (lp_vp p) (Some (now_ms c0))).
  set (v' := mkVoter (v_bal v) (<[i := q]> (v_lps v)) (v_avail v - lp_vp p) (v_vp v)).
  set (s' := upd s vid v' (total_vp s - lp_vp p)).
  pose proof (locked_vp_insert _ _ _ q Hl) as Hi. rewrite Hlk in Hi. change (is_locked q) with false in Hi.
  cbv iota in Hi.
  assert (Hle : lp_vp p <= v_avail v) by lia.
  assert (He : exec c0 s (Unlock i) = Ok (s', [])).
  { cbn [exec]. unfold noeff, non_payable, unlock_position, get_voter_or_panic, get_position. cbn [c_deposit c0 exit_ctx c_pred N.eqb require mbind res_bind].
    rewrite Ev. cbn [expect mbind res_bind]. rewrite Hl. cbn [expect mbind res_bind].
    rewrite (proj2 (N.leb_le _ _) Hle). cbn [require mbind res_bind]. unfold sub128.
    rewrite (proj2 (N.leb_le _ _) Hle). cbn [mbind res_bind]. unfold s', v', q. destruct v, p. reflexivity. }
  assert (Gv : get_voter s' vid = v').
  { unfold get_voter, s', upd. cbn. rewrite om_get_set_eq. reflexivity. }
  destruct (IH s') as (l & Hf & Hok & H1 & H2 & H3).
  { rewrite Gv. cbn [v_lps v']. apply Hins. reflexivity. }
  { rewrite locked_power_eq. unfold get_available_voting_power. rewrite Gv. cbn [v_lps v_avail v']. lia. }
  set (x := (c0, Unlock i)). exists (x :: l).
  assert (Hst : step s x = s'). { unfold step, x. cbn [fst snd]. rewrite He. reflexivity. }
  change (run s (x :: l)) with (run (step s x) l). rewrite Hst.
  split; [constructor; [split; [reflexivity|right; exists i; reflexivity]|exact Hf]|].
  split. { cbn [along]. split; [exists (s', []); exact He|]. rewrite Hst. exact Hok. }
  split; [exact H1|]. split; [rewrite H2; unfold raw_balance; rewrite Gv, Eg; reflexivity|].
  rewrite H3, !positions_amount_eq, Gv, Eg. cbn [v_lps v'].
  pose proof (sum_by_insert lp_amount _ _ _ q Hl) as Hs. change (lp_amount q) with (lp_amount p) in Hs. lia.
Qed.

(** ** Calls of others leave the voter alone *)
Lemma voter_other x s s' e w :
  NoDup (voters s).*1 -> exec x.1 s x.2 = Ok (s', e) -> w <> call_target x ->
  om_get (voters s') w = om_get (voters s) w.
Proof.
  intros Hnd H Hw. apply exec_cases in H as [_ H].
  destruct H as [(-> & _)|(v & v' & Hst & Hc)]; [reflexivity|].
  apply vchg_target in Hc. rewrite <- surjective_pairing in Hc. subst v. destruct Hst as [->|(-> & _)].
  - apply om_get_set_ne. congruence.
  - apply om_get_remove_ne; [exact Hnd|congruence].
Qed.

Lemma voter_others mid : forall tr w, Forall (fun x => call_target x <> w) mid ->
  om_get (voters (run s0 (tr ++ mid))) w = om_get (voters (run s0 tr)) w.
Proof.
  induction mid as [|x mid IH] using rev_ind; intros tr w Hf; [rewrite app_nil_r; reflexivity|].
  apply Forall_app in Hf as [Hf Hx]. apply Forall_inv in Hx.
  rewrite app_assoc, run_app. cbn [run fold_left]. unfold step.
  destruct (exec x.1 (run s0 (tr ++ mid)) x.2) as [[s' e]|] eqn:E; [|apply IH; exact Hf].
  rewrite (voter_other _ _ _ _ w (nodup_run a s0 _ Hn) E) by congruence. apply IH. exact Hf.
Qed.

Lemma past_run tr : Forall (fun x : call => c_ts x.1 <= t) tr -> forall w, pastv (t / 1000000) (get_voter (run s0 tr) w).
Proof.
  intros Hf. destruct (allv_run (pastv (t / 1000000)) a s0 tr) as [_ H]; [intros w; constructor| |exact Hn|exact H].
  intros c s o s' e w v' Hin _ Hch Hp. eapply vchg_past; [|exact Hch|exact Hp].
  rewrite List.Forall_forall in Hf. specialize (Hf _ Hin). cbn [fst] in Hf. unfold now_ms. apply N.div_le_mono; [discriminate|exact Hf].
Qed.

(** ** Phase 3 *)
Lemma withdraw_everything tr c owned :
  Forall (fun p => is_unlocked (now_ms c) p = true) (v_lps (get_voter (run s0 tr) vid)) ->
  c_pred c = vid -> c_deposit c = 1 ->
  owned = raw_balance (run s0 tr) vid + positions_amount (run s0 tr) vid -> 0 < owned < U128_SIZE ->
  exists s', exec c (run s0 tr) WithdrawAll = Ok (s', [PayMp vid owned]) /\ vid ∉ voter_ids s'.
Proof.
  intros Hall Hp Hd Eo Ho. set (s := run s0 tr) in *.
  assert (Hg : get_balance (now_ms c) s vid = Ok owned).
  { rewrite Eo. rewrite positions_amount_eq. unfold get_balance, sum_unlocked, raw_balance.
    assert (List.filter (is_unlocked (now_ms c)) (v_lps (get_voter s vid)) = v_lps (get_voter s vid)) as ->.
    { clear -Hall. induction Hall as [|p l E _ IH]; [reflexivity|]. simpl. rewrite E, IH. reflexivity. }
    rewrite positions_amount_eq in Eo. unfold raw_balance in Eo. unfold sum_by in *.
    assert (sum128 (map lp_amount (v_lps (get_voter s vid))) = Ok (sumN (map lp_amount (v_lps (get_voter s vid))))) as ->.
    { apply sum128_Ok. split; [reflexivity|lia]. }
    cbn [mbind res_bind]. apply add128_Ok. split; [reflexivity|lia]. }
  subst vid. destruct (withdraw_all_pays a s0 tr c owned Hn Hd Hg ltac:(lia)) as (s' & He & Hb & _ & Hno & _).
  exists s'. split; [exact He|]. fold s in He.
  cbn [exec] in He. unfold withdraw_all in He. apply bind_Ok in He as (v0 & Hv0 & He).
  apply withdraw_inv in He as (v & v1 & tt & Hv & Hcl & _ & _ & _ & _ & Htle & _ & Hcase).
  rewrite (get_voter_Some _ _ _ Hv) in Hall.
  destruct Hcase as [(_ & _ & ->)|(Hor & ->)].
  - cbn. apply om_get_None. apply om_get_remove_eq. apply (nodup_run a s0 tr Hn).
  - exfalso. pose proof (clears_pos (fun p => is_unlocked (now_ms c) p = true) _ _ _ Hcl Hall) as Hall1.
    assert (Gv : get_voter (save_voter s (c_pred c) (mkVoter (v_bal v1 - tt) (v_lps v1) (v_avail v1) (v_vp v1))) (c_pred c)
                 = mkVoter (v_bal v1 - tt) (v_lps v1) (v_avail v1) (v_vp v1)).
    { unfold get_voter, save_voter. cbn. rewrite om_get_set_eq. reflexivity. }
    assert (Hnil : v_lps v1 = []).
    { unfold get_all_locking_positions in Hno. rewrite Gv in Hno. cbn [v_lps] in Hno.
      destruct (v_lps v1) as [|p l]; [reflexivity|]. exfalso.
      specialize (Hno (lp_to_json (now_ms c) 0 p) (or_introl eq_refl)). cbn in Hno.
      apply Forall_inv in Hall1. congruence. }
    unfold raw_balance in Hb. rewrite Gv in Hb. cbn [v_bal] in Hb.
    destruct Hor as [Hor|Hor]; [|contradiction].
    lia.
Qed.
End Exit.

Lemma exit_possible a s0 tr vid t :
  mv_new a = Ok s0 -> collision_free tr -> no_zero_votes tr -> along (own_unlocks_locked vid) s0 tr ->
  Forall (fun x : call => c_ts x.1 <= t) tr ->
  let s := run s0 tr in
  (forall ad ob, ~ lock_in_applies s (t / 1000000) ad ob) ->
  let owned := raw_balance s vid + positions_amount s vid in 0 < owned < 2 ^ 128 ->
  exists l, Forall (exit_call vid t) l /\ along succeeds s l /\
    forall mid c, Forall (fun x => call_target x <> vid) mid ->
      c_pred c = vid -> c_deposit c = 1 -> t + days_3600 <= c_ts c ->
      exists s', exec c (run s (l ++ mid)) WithdrawAll = Ok (s', [PayMp vid owned]) /\ vid ∉ voter_ids s'.
Proof.
  intros Hn Hc Hz Ha Hf s Hlk owned Ho.
  destruct (exit_votes a s0 vid t Hn _ tr Hc Hz Ha Hlk eq_refl) as (l1 & Hl1 & Hok1 & Hav & Hb1 & Hp1).
  destruct (exit_unlocks vid t _ (run s0 (tr ++ l1)) eq_refl Hav) as (l2 & Hl2 & Hok2 & Hk & Hb2 & Hp2).
  rewrite <- run_app in Hk, Hb2, Hp2.
  exists (l1 ++ l2). split; [apply Forall_app; auto|]. split.
  { apply along_app. split; [exact Hok1|]. unfold s; rewrite <- run_app. exact Hok2. }
  intros mid c Hm Hp Hd Ht. unfold s. rewrite <- run_app.
  set (tr2 := tr ++ l1 ++ l2).
  assert (E2 : (tr ++ l1) ++ l2 = tr2) by (unfold tr2; rewrite app_assoc; reflexivity). rewrite E2 in *.
  replace (tr ++ (l1 ++ l2) ++ mid) with (tr2 ++ mid) by (unfold tr2; rewrite <- !app_assoc; reflexivity).
  assert (Gv : get_voter (run s0 (tr2 ++ mid)) vid = get_voter (run s0 tr2) vid).
  { unfold get_voter. rewrite (voter_others a s0 Hn mid tr2 vid Hm). reflexivity. }
  assert (Hf2 : Forall (fun x : call => c_ts x.1 <= t) tr2).
  { unfold tr2. apply Forall_app. split; [exact Hf|]. apply Forall_app. 
    split; (eapply Forall_impl; [eassumption|]); intros x [-> _]; cbn; lia. }
  apply (withdraw_everything a s0 vid t Hn); auto.
  - rewrite Gv. pose proof (past_run a s0 t Hn tr2 Hf2 vid) as Hpast.
    apply nlocked_0 in Hk. apply Forall_lookup. intros i p Hl.
    pose proof (Forall_lookup_1 _ _ _ _ Hpast Hl) as H1. pose proof (Forall_lookup_1 _ _ _ _ Hk Hl) as H2.
    pose proof (positions_3600 _ _ _ _ _ _ Hn Hl) as H3.
    unfold is_locked in H2. unfold past in H1. unfold is_unlocked. destruct (lp_unl p) as [d|]; [|discriminate].
    apply N.ltb_lt. unfold now_ms, days_to_millis, days_3600 in *.
    assert (t / 1000000 + 3600 * 86400000 <= c_ts c / 1000000).
    { rewrite <- N.div_add by discriminate. apply N.div_le_mono; [discriminate|]. lia. }
    nia.
  - rewrite !positions_amount_eq. unfold raw_balance. rewrite Gv. fold (raw_balance (run s0 tr2) vid).
    rewrite <- positions_amount_eq, Hb2, Hp2, Hb1, Hp1. reflexivity.
Qed.

(** ** Power lost by a double unlock is lost for good *)
Definition short (vid : string) (d : N) : string -> option N := fun w => if decide (w = vid) then Some d else Some 0.

Lemma inv_short P s vid d :
  Inv weak P s -> pw s (get_voter s vid) + d <= locked_vp (v_lps (get_voter s vid)) -> Inv (short vid d) P s.
Proof.
  intros HI Hd. pose proof HI as [H1 H2 H3 H4 _]. constructor; auto.
  - intros w v Hv. destruct (H2 w v Hv) as (L & Hr & HL & Hb). exists L. split; [exact Hr|]. split; [exact HL|].
    unfold short. destruct (decide (w = vid)) as [->|]; [|exact Hb]. cbn.
    rewrite (get_voter_Some _ _ _ Hv) in Hd. unfold pw in Hd. rewrite (used_raw_rep _ _ _ _ _ Hr) in Hd. exact Hd.
  - intros w d'. unfold short. destruct (decide (w = vid)) as [->|]; intros E Hp; injection E as <-; [|lia].
    destruct (om_get (voters s) vid) eqn:E; [eauto|]. exfalso. unfold get_voter in Hd. rewrite E in Hd. cbn in Hd.
    change (locked_vp []) with 0 in Hd. lia.
Qed.

Lemma shortfall_permanent a s0 tr tr2 vid d u :
  mv_new a = Ok s0 -> collision_free (tr ++ tr2) ->
  get_used_voting_power (run s0 tr) vid = Ok u ->
  get_available_voting_power (run s0 tr) vid + u + d <= locked_power (run s0 tr) vid ->
  Forall (fun x => match x.2 with MirrorLps ext _ => pseudo_near_address ext <> vid | _ => True end) tr2 ->
  exists u', get_used_voting_power (run s0 (tr ++ tr2)) vid = Ok u' /\
    get_available_voting_power (run s0 (tr ++ tr2)) vid + u' + d <= locked_power (run s0 (tr ++ tr2)) vid.
Proof.
  intros Hn Hc Hu Hd Hm. pose proof (inv_run_app a s0 tr tr2 Hn Hc) as HI.
  destruct (inv_used _ _ _ vid HI) as (u0 & Hu0 & Er & _). rewrite Hu in Hu0. injection Hu0 as <-.
  rewrite run_app.
  assert (HI2 : Inv (short vid d) (targetsP (tr ++ tr2)) (run (run s0 tr) tr2)).
  { apply (run_inv (Inv (short vid d) (targetsP (tr ++ tr2)))).
    - apply inv_short; [exact HI|]. unfold pw. rewrite <- Er. rewrite locked_power_eq in Hd. exact Hd.
    - intros x s s' e Hin HI2 He. eapply inv_exec; eauto using targets_injP.
      + intros [v ad] Ht. eapply In_vote_targets; [|exact Ht]. apply in_app_iff. right. exact Hin.
      + unfold short. destruct (decide _); discriminate.
      + intros ext l d' Ex. rewrite List.Forall_forall in Hm. specialize (Hm _ Hin). rewrite Ex in Hm.
        unfold short. rewrite decide_False by exact Hm. congruence. }
  destruct (inv_used _ _ _ vid HI2) as (u' & Hu' & _ & Hb). exists u'. split; [exact Hu'|].
  unfold short in Hb. rewrite decide_True in Hb by reflexivity. exact Hb.
Qed.

Lemma double_unlock_loses c s i j s' e u :
  exec c s (Unlock i) = Ok (s', e) ->
  get_locking_position (now_ms c) s i (c_pred c) = Some j -> j_is_locked j = false ->
  get_used_voting_power s (c_pred c) = Ok u ->
  get_used_voting_power s' (c_pred c) = Ok u /\
  get_available_voting_power s' (c_pred c) + j_vp j = get_available_voting_power s (c_pred c) /\
  locked_power s' (c_pred c) = locked_power s (c_pred c).
Proof.
  intros He Hj Hlk Hu. cbn [exec] in He. apply noeff_Ok in He as [He _]. apply bind_Ok in He as (? & _ & He).
  apply unlock_inv in He as (v & p & Hv & Hl & Hle & ->). set (vid := c_pred c) in *.
  pose proof (get_voter_Some _ _ _ Hv) as Eg.
  set (q := mkLpos (lp_amount p) (lp_days p) (lp_vp p) (Some (now_ms c))) in *.
  set (v' := mkVoter (v_bal v) (<[i := q]> (v_lps v)) (v_avail v - lp_vp p) (v_vp v)).
  assert (Gv : get_voter (upd s vid v' (total_vp s - lp_vp p)) vid = v').
  { unfold get_voter, upd. cbn. rewrite om_get_set_eq. reflexivity. }
  unfold get_locking_position in Hj. rewrite Eg, Hl in Hj. cbn in Hj. injection Hj as <-.
  cbn [j_is_locked lp_to_json] in Hlk. cbn [j_vp lp_to_json].
  split; [|split].
  - rewrite <- Hu. unfold get_used_voting_power. rewrite Gv, Eg. reflexivity.
  - unfold get_available_voting_power. rewrite Gv, Eg. cbn [v_avail v']. lia.
  - rewrite !locked_power_eq, Gv, Eg. cbn [v_lps v'].
    pose proof (locked_vp_insert _ _ _ q Hl) as Hi. rewrite Hlk in Hi. change (is_locked q) with false in Hi. cbv iota in Hi. lia.
Qed.

Lemma double_unlock_permanent a s0 tr c i j tr2 :
  mv_new a = Ok s0 -> let x := (c, Unlock i) in collision_free (tr ++ x :: tr2) ->
  succeeds (run s0 tr) x ->
  get_locking_position (now_ms c) (run s0 tr) i (c_pred c) = Some j -> j_is_locked j = false ->
  Forall (fun x => match x.2 with MirrorLps ext _ => pseudo_near_address ext <> c_pred c | _ => True end) tr2 ->
  j_vp j <= locked_power (run s0 (tr ++ x :: tr2)) (c_pred c).
Proof.
  intros Hn x Hc [[s' e] He] Hj Hlk Hm. cbn [fst snd x] in He.
  destruct (inv_used _ _ _ (c_pred c) (inv_run_app a s0 tr (x :: tr2) Hn Hc)) as (u & Hu & _ & Hb). cbn in Hb.
  destruct (double_unlock_loses c _ i j s' e u He Hj Hlk Hu) as (E1 & E2 & E3).
  assert (Hs' : run s0 (tr ++ [x]) = s').
  { rewrite run_app. cbn [run fold_left]. unfold step, x. cbn [fst snd]. rewrite He. reflexivity. }
  replace (tr ++ x :: tr2) with ((tr ++ [x]) ++ tr2) in * by (rewrite <- app_assoc; reflexivity).
  destruct (shortfall_permanent a s0 (tr ++ [x]) tr2 (c_pred c) (j_vp j) u Hn Hc) as (u' & _ & H).
  - rewrite Hs'. exact E1.
  - rewrite Hs', E3. lia.
  - exact Hm.
  - eapply N.le_trans; [|exact H]. lia.
Qed.
