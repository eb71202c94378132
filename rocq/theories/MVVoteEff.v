(** MVVoteEff.v -- what the voting calls do in reachable states (C03, C13, C21, C29, C30, C31). *)

From Verif Require Export MVTotals MVPos MVRelock.

(** ** Strings *)
Lemma prefix_cons x p y s :
  String.prefix (String x p) (String y s) = if Ascii.ascii_dec x y then String.prefix p s else false.
Proof. reflexivity. Qed.

Lemma append_cons x (a b : string) : String x a +:+ b = String x (a +:+ b).
Proof. reflexivity. Qed.

Lemma prefix_spec p s : String.prefix p s = true <-> exists post, s = p +:+ post.
Proof.
  revert s. induction p as [|x p IH]; intros s.
  - split; [|destruct s; reflexivity]. intros _. exists s. reflexivity.
  - destruct s as [|y s]; [split; [discriminate|intros (q & H); discriminate]|].
    rewrite prefix_cons. destruct (Ascii.ascii_dec x y) as [->|Hne].
    + rewrite IH. split; intros (q & H); exists q; rewrite append_cons in *; [rewrite H; reflexivity|injection H as H; exact H].
    + split; [discriminate|]. intros (q & H). rewrite append_cons in H. injection H as H _. congruence.
Qed.

Lemma index_cons p y s :
  String.index 0 p (String y s) =
  if String.prefix p (String y s) then Some 0%nat
  else match String.index 0 p s with Some n => Some (S n) | None => None end.
Proof. reflexivity. Qed.

Lemma str_contains_occurs p s : str_contains p s = true <-> occurs p s.
Proof.
  unfold str_contains, occurs. induction s as [|y s IH].
  - destruct p as [|x p].
    + split; [|reflexivity]. intros _. exists "", "". reflexivity.
    + split; [discriminate|]. intros (pre & post & H). destruct pre; discriminate.
  - rewrite index_cons. pose proof (prefix_spec p (String y s)) as Hpre.
    destruct (String.prefix p (String y s)).
    + split; [|reflexivity]. intros _. destruct (proj1 Hpre eq_refl) as [post Hp]. exists "", post. exact Hp.
    + destruct (String.index 0 p s).
      * split; [|reflexivity]. intros _. destruct (proj1 IH eq_refl) as (pre & post & E).
        exists (String y pre), post. rewrite E. reflexivity.
      * split; [discriminate|]. intros (pre & post & H). destruct pre as [|z pre].
        -- destruct Hpre as [_ Hpre]. discriminate Hpre. exists post. exact H.
        -- rewrite append_cons in H. injection H as -> H. destruct IH as [_ IH]. discriminate IH. exists pre, post. exact H.
Qed.

Lemma locked_in_spec c s addr obj :
  votes_locked_in c s addr obj = true <-> lock_in_applies s (now_ms c) addr obj.
Proof.
  unfold votes_locked_in, lock_in_applies, get_lock_in_vote_filters.
  destruct (lock_addr s) as [a|].
  - rewrite !andb_true_iff, bool_decide_eq_true, str_contains_occurs, N.ltb_lt. intuition congruence.
  - split; [discriminate|]. intros (_ & H & _). discriminate.
Qed.

(** ** Reachable states, for the names of the whole history *)
Lemma targets_app tr tr2 v a : targetsP tr v a -> targetsP (tr ++ tr2) v a.
Proof.
  unfold targetsP, vote_targets. rewrite omap_app. intros H. apply in_app_iff. auto.
Qed.

Lemma inv_run_app a s0 tr tr2 :
  mv_new a = Ok s0 -> collision_free (tr ++ tr2) -> Inv weak (targetsP (tr ++ tr2)) (run s0 tr).
Proof.
  intros Hn Hc. apply (run_inv (Inv weak (targetsP (tr ++ tr2)))); [eapply inv_init; [exact weak_0|exact Hn]|].
  intros x s s' e Hin HI He. eapply inv_exec; eauto using targets_injP, weak_0; [|discriminate].
  intros [v ad] Ht. apply targets_app. eapply In_vote_targets; eauto.
Qed.

Lemma sinv_run_app a s0 tr tr2 :
  mv_new a = Ok s0 -> collision_free (tr ++ tr2) -> no_zero_votes (tr ++ tr2) ->
  SInv (targetsP (tr ++ tr2)) (run s0 tr).
Proof.
  intros Hn Hc Hz. apply (run_inv (SInv (targetsP (tr ++ tr2)))); [eapply sinv_init; exact Hn|].
  intros x s s' e Hin HS He. eapply (sinv_exec _ (targets_injP _ Hc)); eauto.
  - intros [v ad] Ht. apply targets_app. eapply In_vote_targets; eauto.
  - unfold no_zero_votes in Hz. rewrite Forall_forall in Hz. apply Hz. apply elem_of_app. left.
    apply elem_of_list_In. exact Hin.
Qed.

(** ** Effects *)
Section Eff.
Context (P : string -> string -> Prop) (HinjP : injP P).

Lemma tallies_of_sinv s : SInv P s -> tallies_match s.
Proof.
  intros HS a o. split; [|apply (si_tot _ _ HS)].
  intros vid. destruct (si_ex _ _ HS vid) as [L HX]. eexists. apply (get_votes_exact P _ _ _ _ _ HX).
Qed.

Lemma move_votes s s1 s' vid v' v'' L L' :
  SInv P s -> vexact P (hp_vp s) (hp_vv s) vid (v_vp (get_voter s vid)) L ->
  vmove P s s1 vid (get_voter s vid) v' L L' ->
  voters s' = om_set (voters s) vid v'' -> v_vp v'' = v_vp v' ->
  hp_vp s' = hp_vp s1 -> hp_vv s' = hp_vv s1 ->
  (forall w a o, w <> vid -> get_votes_for_object s' w a o = get_votes_for_object s w a o) /\
  (forall a o, get_votes_for_object s' vid a o = Ok (lvotes L' a o)).
Proof.
  intros HS HX [A1 A2 A3 A4 A5 A6 A7 A8 A9] Ev Evp E2 E3.
  assert (Hg : get_voter s' vid = v'') by (unfold get_voter; rewrite Ev, om_get_set_eq; reflexivity).
  split.
  - intros w a o Hw.
    assert (Hgw : get_voter s' w = get_voter s w).
    { unfold get_voter. rewrite Ev, om_get_set_ne by congruence. reflexivity. }
    destruct (si_ex _ _ HS w) as [Lw HXw].
    rewrite (get_votes_exact P _ _ _ _ _ HXw). apply (get_votes_exact P). rewrite Hgw, E2, E3.
    eapply vexact_frame; [exact HXw|apply A2; exact Hw|].
    intros b Hb. apply A3. intros b2 Hb2 E. destruct (HinjP _ _ _ _ Hb Hb2 E) as [? _]. contradiction.
  - intros a o. apply (get_votes_exact P). rewrite Hg, Evp, E2, E3. exact A1.
Qed.

(** a move saved back is a [vote_change] *)
Lemma move_change s s1 s' vid v' L L' addr obj new :
  SInv P s -> vexact P (hp_vp s) (hp_vv s) vid (v_vp (get_voter s vid)) L ->
  om_get (voters s) vid = Some (get_voter s vid) ->
  vmove P s s1 vid (get_voter s vid) v' L L' -> s' = save_voter s1 vid v' ->
  v_avail v' + new = v_avail (get_voter s vid) + lvotes L addr obj ->
  (forall a o, lvotes L' a o = if decide (a = addr /\ o = obj) then new else lvotes L a o) ->
  vote_change s s' vid addr obj (lvotes L addr obj) new.
Proof.
  intros HS HX Hv Hm Es Hav Hlv. pose proof (vm_st _ _ _ _ _ _ _ _ Hm) as (vs & hv & hp & E1).
  assert (Ev : voters s' = om_set (voters s) vid v') by (rewrite Es, E1; reflexivity).
  destruct (move_votes s s1 s' vid v' v' L L' HS HX Hm Ev eq_refl) as [Ho Hs]; [rewrite Es; reflexivity..|].
  assert (Hg : get_voter s' vid = v') by (unfold get_voter; rewrite Ev, om_get_set_eq; reflexivity).
  assert (Hgw : forall w, w <> vid -> get_voter s' w = get_voter s w).
  { intros w Hw. unfold get_voter. rewrite Ev, om_get_set_ne by congruence. reflexivity. }
  assert (Htot : forall a o, get_total_votes s' a o + lvotes L a o = get_total_votes s a o + lvotes L' a o).
  { intros a o. rewrite <- (vm_tot _ _ _ _ _ _ _ _ Hm a o). rewrite Es. reflexivity. }
  split; [apply (get_votes_exact P _ _ _ _ _ HX)|].
  split. { rewrite Hs, Hlv, decide_True by auto. reflexivity. }
  split. { rewrite Htot, Hlv, decide_True by auto. reflexivity. }
  split. { unfold get_available_voting_power. rewrite Hg. exact Hav. }
  repeat split.
  - intros w a o Hne. destruct (decide (w = vid)) as [->|Hw]; [|apply Ho; exact Hw].
    rewrite Hs, Hlv, decide_False by (intros [-> ->]; apply Hne; reflexivity).
    symmetry. apply (get_votes_exact P _ _ _ _ _ HX).
  - intros a o Hne. specialize (Htot a o). rewrite Hlv, decide_False in Htot by (intros [-> ->]; apply Hne; reflexivity). lia.
  - intros w Hw. unfold get_available_voting_power. rewrite Hgw by exact Hw. reflexivity.
  - intros w. unfold raw_balance. destruct (decide (w = vid)) as [->|Hw]; [|rewrite Hgw by exact Hw; reflexivity].
    rewrite Hg. apply (vm_bal _ _ _ _ _ _ _ _ Hm).
  - intros now w. unfold get_all_locking_positions. destruct (decide (w = vid)) as [->|Hw]; [|rewrite Hgw by exact Hw; reflexivity].
    rewrite Hg. f_equal. apply (vm_lps _ _ _ _ _ _ _ _ Hm).
  - unfold voter_ids. rewrite Ev, om_set_keys, Hv. reflexivity.
  - rewrite Es, E1. destruct s; reflexivity.
Qed.

Lemma vote_change_of s vid vp addr obj s' :
  SInv P s -> P vid addr -> 0 < vp -> internal_vote s vid vp addr obj = Ok s' ->
  exists old, vote_change s s' vid addr obj old (old + vp).
Proof.
  intros HS HP Hvp H. destruct (vote_exact P _ _ _ _ _ _ HS HP Hvp H) as (s1 & v' & L & L' & Hv & HX & Hm & Es & Hle & Hav & Hlv).
  exists (lvotes L addr obj). eapply move_change; eauto; [lia|].
  intros a o. rewrite Hlv. case_decide as Hd; [destruct Hd as [-> ->]; reflexivity|lia].
Qed.

Lemma unvote_change_of c s vid addr obj s' :
  SInv P s -> internal_unvote c s vid addr obj = Ok s' ->
  exists old, 0 < old /\ vote_change s s' vid addr obj old 0 /\ ~ lock_in_applies s (now_ms c) addr obj.
Proof.
  intros HS H. destruct (unvote_exact P _ _ _ _ _ _ HS H) as (s1 & v' & L & L' & Hv & HX & Hm & Es & Hlk & Hpos & Hav & Hlv).
  exists (lvotes L addr obj). split; [exact Hpos|]. split; [eapply move_change; eauto; lia|].
  intros Hl. apply locked_in_spec in Hl. congruence.
Qed.

Lemma rebalance_change_of c s vp addr obj s' :
  SInv P s -> rebalance c s vp addr obj = Ok s' ->
  exists old, 0 < old /\ old <> vp /\ vote_change s s' (c_pred c) addr obj old vp.
Proof.
  intros HS H. destruct (rebalance_exact P _ _ _ _ _ _ HS H) as (s1 & v' & L & L' & Hv & HX & Hm & Es & Hpos & Hne & Hav & Hlk & Hlv).
  exists (lvotes L addr obj). split; [exact Hpos|]. split; [congruence|]. eapply move_change; eauto.
Qed.

(** ** Withdrawing votes always works *)
Lemma sinv_own s vid L a o :
  SInv P s -> vexact P (hp_vp s) (hp_vv s) vid (v_vp (get_voter s vid)) L ->
  lvotes L a o <= get_total_votes s a o /\
  (0 < lvotes L a o -> om_get (voters s) vid = Some (get_voter s vid)).
Proof.
  intros HS HX. rewrite (si_tot _ _ HS). rewrite <- (votes_or0_exact P _ _ _ a o HX).
  destruct (om_get (voters s) vid) as [v|] eqn:E.
  - split; [|intros _; unfold get_voter; rewrite E; reflexivity].
    apply (sum_by_ge_elem (fun q => votes_or0 s q a o)). apply elem_of_list_In.
    unfold voter_ids. eapply om_get_Some_key; exact E.
  - rewrite (votes_absent P s vid a o); [|eauto|apply om_get_None; exact E]. split; lia.
Qed.

Lemma used_ge L a o : lvotes L a o <= used L.
Proof.
  unfold lvotes. destruct (om_get L a) as [[h m]|] eqn:E; [|lia].
  apply om_get_Some_In in E. pose proof (sum_by_ge_elem (fun e => mpow e.2.2) L _ E) as H1. cbn in H1. fold (used L) in H1.
  destruct (om_get m o) as [x|] eqn:E2; cbn; [|lia].
  apply om_get_Some_In in E2. pose proof (sum_by_ge_elem snd m _ E2) as H2. cbn in H2. unfold mpow in H1. lia.
Qed.

Lemma sinv_power s vid L :
  SInv P s -> vexact P (hp_vp s) (hp_vv s) vid (v_vp (get_voter s vid)) L ->
  v_avail (get_voter s vid) + used L <= total_vp s /\ total_vp s < U128_SIZE.
Proof.
  intros HS HX. destruct (inv_get _ _ s vid (si_inv _ _ HS)) as (Lw & Hr & _ & _ & Hpw & Hpt).
  rewrite <- (used_raw_rep _ _ _ _ _ Hr), (used_raw_rep _ _ _ _ _ (ve_rep _ _ _ _ _ _ HX)) in Hpw.
  pose proof (i_bnd _ _ _ (si_inv _ _ HS)). lia.
Qed.

Lemma unvote_total c s vid addr obj x :
  SInv P s -> get_votes_for_object s vid addr obj = Ok x -> 0 < x ->
  ~ lock_in_applies s (now_ms c) addr obj ->
  exists s', internal_unvote c s vid addr obj = Ok s'.
Proof.
  intros HS Hx Hpos Hlk. destruct (si_ex _ _ HS vid) as [L HX].
  rewrite (get_votes_exact P _ _ _ _ _ HX) in Hx. injection Hx as <-.
  destruct (sinv_own s vid L addr obj HS HX) as [Hle Hv]. specialize (Hv Hpos).
  destruct (sinv_power s vid L HS HX) as [Hpw Hb]. pose proof (used_ge L addr obj).
  destruct (remove_vp_total P s vid (get_voter s vid) addr obj L HX (si_nd _ _ HS) Hpos Hle ltac:(lia)) as [[s1 v1] Hr].
  exists (save_voter s1 vid v1). unfold internal_unvote, get_voter_or_panic.
  assert (votes_locked_in c s addr obj = false) as ->.
  { destruct (votes_locked_in c s addr obj) eqn:E; [|reflexivity]. apply locked_in_spec in E. contradiction. }
  rewrite Hv. cbn [negb require mbind res_bind expect]. rewrite Hr. reflexivity.
Qed.

End Eff.

Lemma c29_unvote a s0 tr c addr obj x :
  mv_new a = Ok s0 -> collision_free tr -> no_zero_votes tr ->
  let s := run s0 tr in let vid := c_pred c in
  get_votes_for_object s vid addr obj = Ok x -> 0 < x ->
  ~ lock_in_applies s (now_ms c) addr obj -> c_deposit c = 0 ->
  exists s', exec c s (Unvote addr obj) = Ok (s', []) /\ vote_change s s' vid addr obj x 0.
Proof.
  intros Hn Hc Hz s vid Hx Hpos Hlk Hd. pose proof (sinv_run a s0 tr Hn Hc Hz) as HS. fold s in HS.
  destruct (unvote_total _ c s vid addr obj x HS Hx Hpos Hlk) as [s' Hs].
  exists s'. split.
  - cbn [exec]. unfold unvote, non_payable. rewrite Hd. cbn [N.eqb require mbind res_bind]. fold vid. rewrite Hs. reflexivity.
  - destruct (unvote_change_of _ (targets_injP _ Hc) c s vid addr obj s' HS Hs) as (old & _ & Hch & _).
    assert (old = x) as <- by (destruct Hch as [E _]; congruence). exact Hch.
Qed.

Lemma c29_delegated a s0 tr c evm addr obj x :
  mv_new a = Ok s0 -> collision_free tr -> no_zero_votes tr ->
  let s := run s0 tr in let vid := pseudo_near_address evm in
  evm ∈ get_delegating_evm_addresses s (c_pred c) ->
  get_votes_for_object s vid addr obj = Ok x -> 0 < x ->
  ~ lock_in_applies s (now_ms c) addr obj -> c_deposit c = 0 ->
  exists s', exec c s (UnvoteDelegated evm addr obj) = Ok (s', []) /\ vote_change s s' vid addr obj x 0.
Proof.
  intros Hn Hc Hz s vid Hev Hx Hpos Hlk Hd. pose proof (sinv_run a s0 tr Hn Hc Hz) as HS. fold s in HS.
  destruct (unvote_total _ c s vid addr obj x HS Hx Hpos Hlk) as [s' Hs].
  exists s'. split.
  - cbn [exec]. unfold unvote_delegated, verify_delegate, non_payable. rewrite Hd. cbn [N.eqb require mbind res_bind].
    unfold get_delegating_evm_addresses in Hev. rewrite bool_decide_true by exact Hev.
    cbn [require mbind res_bind]. fold vid. rewrite Hs. reflexivity.
  - destruct (unvote_change_of _ (targets_injP _ Hc) c s vid addr obj s' HS Hs) as (old & _ & Hch & _).
    assert (old = x) as <- by (destruct Hch as [E _]; congruence). exact Hch.
Qed.

Lemma last_target tr x t : vote_target x = Some t -> targetsP (tr ++ [x]) t.1 t.2.
Proof.
  intros H. destruct t as [v a]. apply (In_vote_targets (tr ++ [x]) x); [|exact H].
  apply in_app_iff. right. left. reflexivity.
Qed.

Lemma last_nonzero tr x : no_zero_votes (tr ++ [x]) ->
  match x.2 with Vote p _ _ | VoteDelegated _ p _ _ => p <> 0 | _ => True end.
Proof.
  unfold no_zero_votes. rewrite Forall_app. intros [_ H]. apply Forall_inv in H. exact H.
Qed.

Lemma c30_vote a s0 tr c vp addr obj s' e :
  mv_new a = Ok s0 -> let x := (c, Vote vp addr obj) in
  collision_free (tr ++ [x]) -> no_zero_votes (tr ++ [x]) ->
  exec c (run s0 tr) (Vote vp addr obj) = Ok (s', e) ->
  exists old, vote_change (run s0 tr) s' (c_pred c) addr obj old (old + vp).
Proof.
  intros Hn x Hc Hz H. pose proof (sinv_run_app a s0 tr [x] Hn Hc Hz) as HS.
  cbn [exec] in H. apply noeff_Ok in H as [H _]. unfold vote in H. apply bind_Ok in H as (? & _ & H).
  eapply (vote_change_of _ (targets_injP _ Hc)); [exact HS| | |exact H].
  - apply (last_target tr x (c_pred c, addr)). reflexivity.
  - apply last_nonzero in Hz. cbn in Hz. lia.
Qed.

Lemma c30_vote_delegated a s0 tr c evm vp addr obj s' e :
  mv_new a = Ok s0 -> let x := (c, VoteDelegated evm vp addr obj) in
  collision_free (tr ++ [x]) -> no_zero_votes (tr ++ [x]) ->
  exec c (run s0 tr) (VoteDelegated evm vp addr obj) = Ok (s', e) ->
  exists old, vote_change (run s0 tr) s' (pseudo_near_address evm) addr obj old (old + vp).
Proof.
  intros Hn x Hc Hz H. pose proof (sinv_run_app a s0 tr [x] Hn Hc Hz) as HS.
  cbn [exec] in H. apply noeff_Ok in H as [H _]. unfold vote_delegated, verify_delegate in H. rinv.
  eapply (vote_change_of _ (targets_injP _ Hc)); [exact HS| | |exact H].
  - apply (last_target tr x (pseudo_near_address evm, addr)). reflexivity.
  - apply last_nonzero in Hz. cbn in Hz. lia.
Qed.

Lemma c30_unvote a s0 tr c addr obj s' e :
  mv_new a = Ok s0 -> collision_free tr -> no_zero_votes tr ->
  exec c (run s0 tr) (Unvote addr obj) = Ok (s', e) ->
  exists old, 0 < old /\ vote_change (run s0 tr) s' (c_pred c) addr obj old 0.
Proof.
  intros Hn Hc Hz H. pose proof (sinv_run a s0 tr Hn Hc Hz) as HS.
  cbn [exec] in H. apply noeff_Ok in H as [H _]. unfold unvote in H. apply bind_Ok in H as (? & _ & H).
  destruct (unvote_change_of _ (targets_injP _ Hc) _ _ _ _ _ _ HS H) as (old & ? & ? & _). eauto.
Qed.

Lemma c30_unvote_delegated a s0 tr c evm addr obj s' e :
  mv_new a = Ok s0 -> collision_free tr -> no_zero_votes tr ->
  exec c (run s0 tr) (UnvoteDelegated evm addr obj) = Ok (s', e) ->
  exists old, 0 < old /\ vote_change (run s0 tr) s' (pseudo_near_address evm) addr obj old 0.
Proof.
  intros Hn Hc Hz H. pose proof (sinv_run a s0 tr Hn Hc Hz) as HS.
  cbn [exec] in H. apply noeff_Ok in H as [H _]. unfold unvote_delegated, verify_delegate in H. rinv.
  destruct (unvote_change_of _ (targets_injP _ Hc) _ _ _ _ _ _ HS H) as (old & ? & ? & _). eauto.
Qed.

Lemma c30_rebalance a s0 tr c vp addr obj s' e :
  mv_new a = Ok s0 -> collision_free tr -> no_zero_votes tr ->
  exec c (run s0 tr) (Rebalance vp addr obj) = Ok (s', e) ->
  exists old, 0 < old /\ old <> vp /\ vote_change (run s0 tr) s' (c_pred c) addr obj old vp.
Proof.
  intros Hn Hc Hz H. pose proof (sinv_run a s0 tr Hn Hc Hz) as HS.
  cbn [exec] in H. apply noeff_Ok in H as [H _].
  exact (rebalance_change_of _ (targets_injP _ Hc) _ _ _ _ _ _ HS H).
Qed.
