(** MVStep3.v -- C72: delegations, and the calls that act on the positions and balance of one account. *)

From Verif Require Export MVStep2.

Lemma without_retain e l : without e l = retain_ne e l.
Proof.
  unfold without, retain_ne. apply filter_ext. intros x. f_equal.
  destruct (String.eqb_spec x e) as [->|Hne]; [rewrite bool_decide_true; reflexivity|].
  rewrite bool_decide_false by exact Hne. reflexivity.
Qed.

Lemma clm_default (m : omap_t string N) x : default 0 (om_get m x) = clm m x.
Proof. reflexivity. Qed.

Section Step3.
Context (P : string -> string -> Prop) (s : state) (G : good P s) (c : ctx).
Notation me := (c_pred c).

Lemma step_deleg o s' e : exec c s o = Ok (s', e) ->
  match o with
  | PreDelegate _ _ | OpRemovePre _ | OpConfirm _ | RemoveDelegated _ => same (observe s') (next c (observe s) o)
  | _ => True
  end.
Proof.
  intros H0. pose proof H0 as H. pose proof (g_d _ _ G) as HD. destruct o; try exact I; cbn [exec] in H; apply noeff_Ok in H as [H ->].
  - unfold pre_delegate_evm_address in H. apply bind_Ok in H as (? & _ & H). apply bind_Ok in H as (? & _ & H). injection H as <-.
    apply same_of; try reflexivity; [eapply (acct_keep P s G); [exact H0|reflexivity|reflexivity]|].
    intros w. change (<[evm:=(me, sig)]> (evm_pre s) !! w = put evm (Some (me, sig)) (get_pre_delegate s) w).
    destruct (decide (w = evm)) as [->|Hne]; [rewrite put_eq; apply lookup_insert|].
    rewrite put_ne by exact Hne. apply lookup_insert_ne. congruence.
  - unfold operator_remove_pre_delegate in H. apply bind_Ok in H as (? & _ & H). apply bind_Ok in H as (? & _ & H). injection H as <-.
    apply same_of; try reflexivity; [eapply (acct_keep P s G); [exact H0|reflexivity|reflexivity]|].
    intros w. change (delete evm (evm_pre s) !! w = put evm None (get_pre_delegate s) w).
    destruct (decide (w = evm)) as [->|Hne]; [rewrite put_eq; apply lookup_delete|].
    rewrite put_ne by exact Hne. apply lookup_delete_ne. congruence.
  - unfold operator_confirm_delegated in H. apply bind_Ok in H as (? & _ & H). apply bind_Ok in H as (? & _ & H).
    cbn [next]. change (l_pre (observe s) evm) with (evm_pre s !! evm). rewrite deleg_view.
    destruct (evm_pre s !! evm) as [[to sg]|] eqn:Ep.
    2:{ injection H as <-. apply same_of; try reflexivity. eapply (acct_keep P s G); [exact H0|reflexivity|reflexivity]. }
    assert (Epre : forall w, delete evm (evm_pre s) !! w = put evm None (get_pre_delegate s) w).
    { intros w. destruct (decide (w = evm)) as [->|Hne]; [rewrite put_eq; apply lookup_delete|].
      rewrite put_ne by exact Hne. apply lookup_delete_ne. congruence. }
    assert (Esig : forall w, <[evm:=(to, sg)]> (evm_sigs s) !! w = put evm (Some (to, sg)) (l_deleg (observe s)) w).
    { intros w. destruct (decide (w = evm)) as [->|Hne]; [rewrite put_eq; apply lookup_insert|].
      rewrite put_ne by exact Hne. rewrite deleg_view. apply lookup_insert_ne. congruence. }
    cbn zeta in H. change (evm_sigs (s <| evm_pre := delete evm (evm_pre s) |>) !! evm) with (evm_sigs s !! evm) in H.
    change (evm_delegates (s <| evm_pre := delete evm (evm_pre s) |>)) with (evm_delegates s) in H.
    destruct (evm_sigs s !! evm) as [[old g2]|] eqn:Es.
    + destruct (decide (old = to)) as [->|Hne].
      * rewrite bool_decide_true in H by reflexivity. injection H as <-.
        apply same_of; try reflexivity; [eapply (acct_keep P s G); [exact H0|reflexivity|reflexivity]|exact Epre].
      * rewrite bool_decide_false in H by exact Hne. apply bind_Ok in H as (pl & Hpl & H). apply expect_Ok in Hpl. injection H as <-.
        apply same_of; try reflexivity; [eapply (acct_keep P s G); [exact H0|reflexivity|reflexivity]|exact Epre| |].
        -- intros w. rewrite deleg_view. apply Esig.
        -- set (d1 := match retain_ne evm pl with [] => _ | _ => _ end).
           assert (Ed1 : forall w, lst d1 w = put old (without evm (lst (evm_delegates s) old)) (lst (evm_delegates s)) w).
           { intros w. assert (El : lst (evm_delegates s) old = pl) by (unfold lst; rewrite Hpl; reflexivity).
             rewrite El, without_retain. unfold put. subst d1. destruct (retain_ne evm pl) eqn:Er.
             - rewrite lst_remove by apply (di_nd _ _ HD). repeat case_decide; congruence.
             - rewrite lst_set. repeat case_decide; congruence. }
           intros w. change (lst (om_set d1 to (lst d1 to ++ [evm])) w
             = put to (put old (without evm (lst (evm_delegates s) old)) (lst (evm_delegates s)) to ++ [evm])
                 (put old (without evm (lst (evm_delegates s) old)) (lst (evm_delegates s))) w).
           rewrite lst_set. destruct (decide (to = w)) as [<-|Hw]; [rewrite put_eq, Ed1; reflexivity|].
           rewrite put_ne by congruence. apply Ed1.
    + injection H as <-.
      apply same_of; try reflexivity; [eapply (acct_keep P s G); [exact H0|reflexivity|reflexivity]|exact Epre| |].
      * intros w. rewrite deleg_view. apply Esig.
      * intros w. change (lst (om_set (evm_delegates s) to (lst (evm_delegates s) to ++ [evm])) w
             = put to (lst (evm_delegates s) to ++ [evm]) (lst (evm_delegates s)) w).
        rewrite lst_set. destruct (decide (to = w)) as [<-|Hw]; [rewrite put_eq; reflexivity|]. rewrite put_ne by congruence. reflexivity.
  - unfold remove_delegated_evm_address in H. apply bind_Ok in H as (? & _ & H).
    destruct (evm_sigs s !! evm) as [[a g]|] eqn:Es; [|discriminate]. case_bool_decide as Ha; [|discriminate].
    apply bind_Ok in H as (l & Hl & H). apply expect_Ok in Hl. injection H as <-.
    apply same_of; try reflexivity; [eapply (acct_keep P s G); [exact H0|reflexivity|reflexivity]| |].
    + intros w. rewrite deleg_view. change (delete evm (evm_sigs s) !! w = put evm None (l_deleg (observe s)) w).
      destruct (decide (w = evm)) as [->|Hne]; [rewrite put_eq; apply lookup_delete|].
      rewrite put_ne by exact Hne. rewrite deleg_view. apply lookup_delete_ne. congruence.
    + intros w. change (lst (om_set (evm_delegates s) me (retain_ne evm l)) w
        = put me (without evm (lst (evm_delegates s) me)) (lst (evm_delegates s)) w).
      assert (El : lst (evm_delegates s) me = l) by (unfold lst; rewrite Hl; reflexivity). rewrite El, without_retain, lst_set.
      destruct (decide (me = w)) as [<-|Hw]; [rewrite put_eq; reflexivity|]. rewrite put_ne by congruence. reflexivity.
Qed.

(** *** The shape shared by the calls on one account *)
Lemma same_upd o s' e s1 vid v' t M :
  exec c s o = Ok (s', e) -> is_vote_op o = false -> s' = upd s1 vid v' t -> voters s1 = voters s ->
  acct_with s vid v' = l_acct M vid -> (forall w, w <> vid -> acct_of s w = l_acct M w) ->
  settings (observe s1) = settings M -> nums (observe s1 <| l_power := t |>) = nums M ->
  (forall x y, l_tally (observe s) x y = l_tally M x y) -> (forall w, l_mp (observe s1) w = l_mp M w) ->
  (forall w, l_st (observe s1) w = l_st M w) ->
  (forall w, l_data (observe s1) w = l_data M w) -> (forall w, l_pre (observe s1) w = l_pre M w) ->
  (forall w, l_deleg (observe s1) w = l_deleg M w) -> (forall w, l_evms (observe s1) w = l_evms M w) ->
  same (observe s') M.
Proof.
  intros H Ho Es Ev Ha Hw H1 H2 H3 H4 H5 H6 H7 H8 H9.
  assert (Ev' : voters s' = om_set (voters s) vid v') by (rewrite Es, <- Ev; reflexivity).
  destruct (kept P s G c _ _ _ H Ho) as (_ & _ & K).
  apply same_of.
  - intros w. eapply same_acct_trans; [eapply (acct_set P s G); eauto|]. apply same_acct_eq.
    destruct (decide (w = vid)) as [->|Hne]; [rewrite put_eq; exact Ha|]. rewrite put_ne by exact Hne. auto.
  - rewrite <- H1, Es. reflexivity.
  - rewrite <- H2, Es. reflexivity.
  - intros x y. rewrite <- H3. apply K.
  - intros w. rewrite <- H4, Es. reflexivity.
  - intros w. rewrite <- H5, Es. reflexivity.
  - intros w. rewrite <- H6, Es. reflexivity.
  - intros w. rewrite <- H7, Es. reflexivity.
  - intros w. rewrite <- H8, Es. reflexivity.
  - intros w. rewrite <- H9, Es. reflexivity.
Qed.

(** the account after a deposit, from the account [a] whose other fields are those of [v] *)
Lemma lock_acct_with amount days vid v' b ps f :
  map lpp (v_lps v') = add_to (mkPos amount days (power days amount) None) ps ->
  v_bal v' = b -> v_avail v' = f + power days amount ->
  forall x, acct_with s vid v' = lock_acct amount days (mkAcct x b ps f (used_or0 s vid) (votes_or0 s vid)).
Proof. intros E1 E2 E3 x. unfold acct_with, lock_acct. rewrite E1, E2, E3. reflexivity. Qed.

Lemma put2_other {A} k (v1 v2 : A) f w : w <> k -> f w = put k v1 (put k v2 f) w.
Proof. intros H. rewrite !put_ne by exact H. reflexivity. Qed.

Lemma step_lock o s' e : exec c s o = Ok (s', e) ->
  match o with
  | ClaimAndLock _ _ | RelockFromBalance _ _ | Relock _ _ _ | RelockPartial _ _ _ _ => same (observe s') (next c (observe s) o)
  | _ => True
  end.
Proof.
  intros H0. pose proof H0 as H. destruct (g_c _ _ G) as [[Hnd _ _] _]. destruct o; try exact I; cbn [exec] in H; apply noeff_Ok in H as [H ->].
  - (* claim and lock *)
    unfold claim_and_lock in H. apply bind_Ok in H as (? & _ & H). apply bind_Ok in H as (? & _ & H). cbn zeta in H.
    apply bind_Ok in H as (s1 & Hr & H). apply bind_Ok in H as (v & Hv & H). apply expect_Ok in Hv.
    apply bind_Ok in H as ([s2 v2] & Hd & H). injection H as ->.
    apply remove_claimable_mpdao_inv in Hr as (_ & _ & Es1). apply deposit_step in Hd as (_ & D1 & D2 & D3 & D4).
    assert (Ev : voters s1 = voters s) by (rewrite Es1; reflexivity). rewrite Ev in Hv.
    eapply same_upd; [exact H0|reflexivity|exact D4|exact Ev|..]; try (rewrite Es1; reflexivity); try reflexivity.
    + change (acct_with s me v2 = put me (lock_acct amount days (acct_of s me)) (acct_of s) me). rewrite put_eq, (acct_me s c v Hv).
      apply lock_acct_with; assumption.
    + intros w Hw. change (acct_of s w = put me (lock_acct amount days (acct_of s me)) (acct_of s) w). rewrite put_ne by exact Hw. reflexivity.
    + intros w. rewrite Es1. apply (om_take (claim_mp s) Hnd).
  - (* relock *)
    unfold relock_position in H. apply bind_Ok in H as (? & _ & H). cbn zeta in H.
    apply bind_Ok in H as (v & Hv & H). apply expect_Ok in Hv. apply bind_Ok in H as (p & Hp & H). apply expect_Ok in Hp.
    apply bind_Ok in H as (? & _ & H). apply bind_Ok in H as (st & Hst & H). apply bind_Ok in H as (? & _ & H).
    apply bind_Ok in H as (am & Ham & H). apply add128_Ok in Ham as [-> _].
    apply bind_Ok in H as (v1 & Hrm & H). apply remove_position_inv in Hrm as [Hlt ->].
    apply bind_Ok in H as (b & Hb & H). apply sub128_Ok in Hb as [-> _].
    apply bind_Ok in H as ([s2 v2] & Hd & H). injection H as ->. apply deposit_step in Hd as (_ & D1 & D2 & D3 & D4).
    cbn [next]. unfold at_pos. rewrite (pos_me s c v i p Hv Hp : a_pos (l_acct (observe s) me) !! i = _). cbn [p_amount lpp].
    assert (Ea : acct_with s me v2 = lock_acct (lp_amount p + afb) days
      (acct_of s me <| a_pos := take_out i (a_pos (acct_of s me)) |> <| a_bal := a_bal (acct_of s me) - afb |>)).
    { rewrite (acct_me s c v Hv). cbn [a_pos a_bal]. rewrite take_out_map by exact Hlt. apply lock_acct_with; assumption. }
    eapply same_upd; [exact H0|reflexivity|exact D4|reflexivity|..]; try reflexivity.
    + rewrite Ea. unfold lock_for, on. cbn [l_acct set]. rewrite !put_eq. reflexivity.
    + intros w Hw. apply put2_other. exact Hw.
  - (* relock part *)
    unfold relock_partial_position in H. apply bind_Ok in H as (? & _ & H). cbn zeta in H.
    apply bind_Ok in H as (v & Hv & H). apply expect_Ok in Hv. apply bind_Ok in H as (p & Hp & H). apply expect_Ok in Hp.
    apply bind_Ok in H as (? & _ & H). apply bind_Ok in H as (? & _ & H).
    apply bind_Ok in H as (am & Ham & H). apply add128_Ok in Ham as [-> _]. apply bind_Ok in H as (? & _ & H).
    apply bind_Ok in H as (st & Hst & H). apply expect_Ok in Hst.
    apply bind_Ok in H as (v1 & Hv1 & H). apply bind_Ok in H as (b & Hb & H). apply sub128_Ok in Hb as [-> _].
    apply bind_Ok in H as ([s2 v2] & Hd & H). injection H as ->. apply deposit_step in Hd as (_ & D1 & D2 & D3 & D4).
    cbn [next]. unfold at_pos. rewrite (pos_me s c v i p Hv Hp : a_pos (l_acct (observe s) me) !! i = _).
    assert (Ea : acct_with s me v2 = lock_acct (afb + afp) days (relock_part (now_ms c) i (lpp p) afp afb (acct_of s me))).
    { rewrite (acct_me s c v Hv). unfold relock_part. cbn [lpp p_since p_amount p_days ends a_pos a_bal]. rewrite Hst.
      unfold ends. cbn [lpp p_days]. unfold days_to_millis in Hv1.
      destruct (now_ms c <? st + lp_days p * 86400000) eqn:En.
      - apply bind_Ok in Hv1 as (? & _ & Hv1).
        apply bind_Ok in Hv1 as (na & Hna & Hv1). apply sub128_Ok in Hna as [-> _]. apply bind_Ok in Hv1 as (? & _ & Hv1).
        apply bind_Ok in Hv1 as (? & _ & Hv1). apply bind_Ok in Hv1 as (nvp & Hnvp & Hv1). apply power_calc in Hnvp as ->.
        injection Hv1 as <-. cbn [replace_position v_bal v_lps v_avail set] in D1, D2, D3.
        rewrite map_lpp_insert in D2.
        change (lpp _) with (mkPos (lp_amount p - afp) (lp_days p) (power (lp_days p) (lp_amount p - afp)) (lp_unl p)) in D2 at 1. rewrite Hst in D2.
        apply lock_acct_with; assumption.
      - apply bind_Ok in Hv1 as (na & Hna & Hv1). apply sub128_Ok in Hna as [-> _].
        apply bind_Ok in Hv1 as (b & Hb & Hv1). apply add128_Ok in Hb as [-> _]. apply remove_position_inv in Hv1 as [Hlt ->].
        cbn [v_bal v_lps v_avail set] in D1, D2, D3, Hlt. rewrite take_out_map by exact Hlt.
        apply lock_acct_with; assumption. }
    eapply same_upd; [exact H0|reflexivity|exact D4|reflexivity|..]; try reflexivity.
    + rewrite Ea. unfold lock_for, on. cbn [l_acct set]. rewrite !put_eq. reflexivity.
    + intros w Hw. apply put2_other. exact Hw.
  - unfold relock_from_balance in H. apply bind_Ok in H as (? & _ & H). cbn zeta in H.
    apply bind_Ok in H as (v & Hv & H). apply expect_Ok in Hv. apply bind_Ok in H as (? & _ & H). apply bind_Ok in H as (? & _ & H).
    apply bind_Ok in H as (b & Hb & H). apply sub128_Ok in Hb as [-> _].
    apply bind_Ok in H as ([s2 v2] & Hd & H). injection H as ->. apply deposit_step in Hd as (_ & D1 & D2 & D3 & D4).
    assert (Ea : acct_with s me v2 = lock_acct amount days (acct_of s me <| a_bal := a_bal (acct_of s me) - amount |>)).
    { rewrite (acct_me s c v Hv). apply lock_acct_with; assumption. }
    eapply same_upd; [exact H0|reflexivity|exact D4|reflexivity|..]; try reflexivity.
    + rewrite Ea. cbn [next]. unfold lock_for, on. cbn [l_acct set]. rewrite !put_eq. reflexivity.
    + intros w Hw. apply put2_other. exact Hw.
Qed.
End Step3.
