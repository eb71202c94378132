(** MVStep5.v -- C72: transfers of tokens to the contract, and positions created by the old contract. *)

From Verif Require Export MVStep4.

Lemma om_set_twice {A} (L : omap_t string A) a v v' : om_set (om_set L a v) a v' = om_set L a v'.
Proof.
  induction L as [|[k x] L IH]; cbn [om_set]; [rewrite decide_True; reflexivity|].
  destruct (decide (a = k)) as [->|Hne]; cbn [om_set]; [rewrite decide_True by reflexivity; reflexivity|].
  rewrite decide_False by exact Hne. f_equal. exact IH.
Qed.
Lemma upd_twice s vid v t v' t' : upd (upd s vid v t) vid v' t' = upd s vid v' t'.
Proof.
  transitivity (upd s vid v' t' <| voters := om_set (om_set (voters s) vid v) vid v' |>); [reflexivity|].
  rewrite om_set_twice. reflexivity.
Qed.

Lemma lock_fold w l : forall L, let M := fold_left (fun M lp => lock_for w (lp.1 / 10 ^ 18) lp.2 M) l L in
  l_acct M w = fold_left (fun a lp => lock_acct (lp.1 / 10 ^ 18) lp.2 a) l (l_acct L w) /\
  (forall x, x <> w -> l_acct M x = l_acct L x) /\
  l_power M = fold_left (fun t lp => t + power lp.2 (lp.1 / 10 ^ 18)) l (l_power L) /\
  settings M = settings L /\ nums (M <| l_power := 0 |>) = nums (L <| l_power := 0 |>) /\ l_tally M = l_tally L /\
  l_mp M = l_mp L /\ l_st M = l_st L /\ l_data M = l_data L /\ l_pre M = l_pre L /\ l_deleg M = l_deleg L /\ l_evms M = l_evms L.
Proof.
  induction l as [|lp l IH]; intros L; [cbn [fold_left]; auto 20|].
  cbn [fold_left]. destruct (IH (lock_for w (lp.1 / 10 ^ 18) lp.2 L)) as (E1 & E2 & E3 & E4 & E5 & E6 & E7 & E8 & E9 & E10 & E11 & E12).
  split; [rewrite E1; unfold lock_for, on; cbn [l_acct set]; rewrite put_eq; reflexivity|].
  split; [intros x Hx; rewrite E2 by exact Hx; unfold lock_for, on; cbn [l_acct set]; rewrite put_ne by exact Hx; reflexivity|].
  split; [exact E3|]. split; [exact E4|]. split; [exact E5|]. auto 20.
Qed.

Lemma deposits_step w l : forall s v s' v',
  foldM (fun sv lp => deposit_locking_position sv.1 (lp.1 / E18) lp.2 w sv.2) l (s, v) = Ok (s', v') ->
  (forall b u f, mkAcct (match l with [] => b | _ => true end) (v_bal v') (map lpp (v_lps v')) (v_avail v') u f
     = fold_left (fun a lp => lock_acct (lp.1 / 10 ^ 18) lp.2 a) l (mkAcct b (v_bal v) (map lpp (v_lps v)) (v_avail v) u f)) /\
  let t := fold_left (fun t lp => t + power lp.2 (lp.1 / 10 ^ 18)) l (total_vp s) in
  match l with [] => s' = s | _ => s' = upd s w v' t end.
Proof.
  induction l as [|lp l IH]; intros s v s' v' H.
  { cbn in H. injection H as <- <-. auto. }
  cbn [foldM] in H. apply bind_Ok in H as ([s1 v1] & H1 & H). cbn [fst snd] in H1.
  apply deposit_step in H1 as (_ & D1 & D2 & D3 & D4). destruct (IH _ _ _ _ H) as (E1 & E2).
  change (lp.1 / E18) with (lp.1 / 10 ^ 18) in *.
  assert (Et : total_vp s1 = total_vp s + power lp.2 (lp.1 / 10 ^ 18)) by (rewrite D4; reflexivity).
  split.
  - intros b u f. cbn [fold_left]. unfold lock_acct at 2. cbn [a_pos a_free set]. rewrite <- D2, <- D3, <- D1.
    transitivity (mkAcct (match l with [] => true | _ => true end) (v_bal v') (map lpp (v_lps v')) (v_avail v') u f); [destruct l; reflexivity|].
    apply E1.
  - cbn zeta. cbn [fold_left]. rewrite <- Et. destruct l as [|q l].
    + cbn [foldM] in H. injection H as <- <-. rewrite Et. exact D4.
    + cbn zeta in E2. rewrite E2 at 1. rewrite D4 at 1. apply upd_twice.
Qed.

Section Step5.
Context (P : string -> string -> Prop) (s : state) (G : good P s) (c : ctx).
Notation me := (c_pred c).

Lemma step_migration w l data s' e : exec c s (MigrationCreateLps w l data) = Ok (s', e) ->
  same (observe s') (next c (observe s) (MigrationCreateLps w l data)).
Proof.
  intros H0. pose proof H0 as H. cbn [exec] in H. apply noeff_Ok in H as [H ->].
  unfold migration_create_lps in H. apply bind_Ok in H as ([] & _ & H). apply bind_Ok in H as ([] & _ & H).
  apply bind_Ok in H as ([s1 v1] & Hf & H). apply deposits_step in Hf as (Ea & Es1). cbn zeta in Es1.
  cbn [next]. set (M := fold_left _ l (observe s)).
  destruct (lock_fold w l (observe s)) as (E1 & E2 & E3 & E4 & E5 & E6 & E7 & E8 & E9 & E10 & E11 & E12). fold M in E1, E2, E3, E4, E5, E6, E7, E8, E9, E10, E11, E12.
  assert (Eu : user_data s1 = user_data s) by (destruct l; rewrite Es1; reflexivity).
  assert (Hd : exists u2, s' = s1 <| user_data := u2 |> /\ forall a, om_get u2 a =
     match data, l_data (observe s) me with Some d, None => put me (Some d) (l_data M) | _, _ => l_data M end a).
  { rewrite data_view, E9. destruct data as [d|].
    - rewrite Eu in H. destruct (om_get (user_data s) me) eqn:Em.
      + injection H as <-. exists (user_data s1). split; [destruct s1; reflexivity|]. intros a. rewrite Eu, data_view. reflexivity.
      + injection H as <-. eexists. split; [reflexivity|]. intros a. destruct (decide (a = me)) as [->|Hne].
        * rewrite put_eq. apply om_get_set_eq.
        * rewrite put_ne by exact Hne. rewrite om_get_set_ne by congruence. rewrite data_view. reflexivity.
    - injection H as <-. exists (user_data s1). split; [destruct s1; reflexivity|]. intros a. rewrite Eu, data_view. reflexivity. }
  destruct Hd as (u2 & -> & Hd).
  set (M2 := match data with Some d => _ | None => M end).
  assert (F : exists D, M2 = M <| l_data := D |> /\ forall a, om_get u2 a = D a).
  { subst M2. destruct data as [d|]; [destruct (l_data (observe s) me)|];
      (eexists; split; [|exact Hd]); [destruct M; reflexivity|reflexivity|destruct M; reflexivity]. }
  destruct F as (D & EM & HD). rewrite EM. clear M2 EM Hd.
  destruct (kept P s G c _ _ _ H0 eq_refl) as (_ & _ & K).
  apply same_of.
  - intros x. cbn [l_acct set]. destruct l as [|q l].
    + subst s1. destruct (decide (x = w)) as [->|Hx].
      * change (l_acct (M <| l_data := D |>) w) with (l_acct M w). rewrite E1. cbn [fold_left].
        eapply (acct_keep P s G); [exact H0|reflexivity|reflexivity].
      * change (l_acct (M <| l_data := D |>) x) with (l_acct M x). rewrite E2 by exact Hx.
        eapply (acct_keep P s G); [exact H0|reflexivity|reflexivity].
    + eapply same_acct_trans; [eapply (acct_set P s G) with (vid := w) (v' := v1); [exact H0|reflexivity|rewrite Es1; reflexivity]|].
      apply same_acct_eq. destruct (decide (x = w)) as [->|Hx].
      * rewrite put_eq. change (l_acct (M <| l_data := D |>) w) with (l_acct M w). rewrite E1.
        change (l_acct (observe s) w) with (acct_of s w). rewrite acct_eq, <- Ea. reflexivity.
      * rewrite put_ne by exact Hx. change (l_acct (M <| l_data := D |>) x) with (l_acct M x). rewrite E2 by exact Hx. reflexivity.
  - change (settings (M <| l_data := D |>)) with (settings M). rewrite E4. destruct l; rewrite Es1; reflexivity.
  - change (nums (M <| l_data := D |>)) with (nums M). unfold nums in E5 |- *. injection E5 as F1 F2 F3 F4.
    cbn [observe l_power l_mp_total l_mp_ever l_st_total l_st_ever set] in *. rewrite E3, F1, F2, F3, F4. destruct l; rewrite Es1; reflexivity.
  - intros x y. change (l_tally (M <| l_data := D |>) x y) with (l_tally M x y). rewrite E6. apply K.
  - intros x. change (l_mp (M <| l_data := D |>) x) with (l_mp M x). rewrite E7. destruct l; rewrite Es1; reflexivity.
  - intros x. change (l_st (M <| l_data := D |>) x) with (l_st M x). rewrite E8. destruct l; rewrite Es1; reflexivity.
  - intros x. rewrite data_view. exact (HD x).
  - intros x. change (l_pre (M <| l_data := D |>) x) with (l_pre M x). rewrite E10. destruct l; rewrite Es1; reflexivity.
  - intros x. change (l_deleg (M <| l_data := D |>) x) with (l_deleg M x). rewrite E11. destruct l; rewrite Es1; reflexivity.
  - intros x. change (l_evms (M <| l_data := D |>) x) with (l_evms M x). rewrite E12. destruct l; rewrite Es1; reflexivity.
Qed.

Lemma step_transfer sender amount msg s' e : exec c s (FtOnTransfer sender amount msg) = Ok (s', e) ->
  same (observe s') (next c (observe s) (FtOnTransfer sender amount msg)).
Proof.
  intros H0. pose proof H0 as H. cbn [exec] in H. apply bind_Ok in H as ([s2 n] & H & H'). injection H' as <- <-.
  unfold ft_on_transfer in H. apply bind_Ok in H as (? & _ & H). apply bind_Ok in H as (fc & Hfc & H). cbn [next].
  destruct fc.
  - rewrite (for_claims_true _ Hfc). apply bind_Ok in H as (l & Hl & H). apply expect_Ok in Hl. rewrite Hl. cbn [default].
    apply bind_Ok in H as (? & _ & H). apply bind_Ok in H as (s3 & Hd & H). injection H as -> _.
    apply distribute_inv in Hd as (_ & [(Hm & Et & Es)|(Hm & Hs & Et & Es)]).
    + rewrite decide_True by exact Hm. cbn zeta in Es.
      apply same_of; [eapply (acct_keep P s G); [exact H0|reflexivity|rewrite Es; reflexivity]|..]; try (rewrite Es; reflexivity).
      * unfold nums. rewrite Es. cbn [observe]. unfold get_total_voting_power, get_contract_info. cbn. rewrite dist_total, Et. reflexivity.
      * intros w. rewrite Es. apply dist_clm.
    + rewrite decide_False by exact Hm. cbn zeta in Es.
      apply same_of; [eapply (acct_keep P s G); [exact H0|reflexivity|rewrite Es; reflexivity]|..]; try (rewrite Es; reflexivity).
      * unfold nums. rewrite Es. cbn [observe]. unfold get_total_voting_power, get_contract_info. cbn. rewrite dist_total, Et. reflexivity.
      * intros w. rewrite Es. apply dist_clm.
  - rewrite (for_claims_false _ Hfc). apply bind_Ok in H as (? & _ & H). apply bind_Ok in H as (ip & Hip & H).
    apply bind_Ok in H as ([vid days] & Ht & H). apply bind_Ok in H as (? & _ & H). apply bind_Ok in H as ([s3 v3] & Hd & H). injection H as -> _.
    assert (El : lock_target c sender msg = Some (vid, days)).
    { unfold lock_target. pose proof (pair_spec _ (pair_needs _ _ Hip)) as Hp. rewrite Hip in Hp. apply Ok_inj in Hp. subst ip.
      destruct (after_prefix "[" msg).
      - apply bind_Ok in Ht as (pr & Hpr & Ht). apply expect_Ok in Hpr. apply bind_Ok in Ht as (? & _ & Ht).
        apply bind_Ok in Ht as (? & _ & Ht). injection Ht as ->. exact Hpr.
      - apply bind_Ok in Ht as (d & Hpr & Ht). apply expect_Ok in Hpr. injection Ht as <- <-. rewrite Hpr. reflexivity. }
    rewrite El. apply deposit_step in Hd as (_ & D1 & D2 & D3 & D4).
    eapply (same_upd P s G); [exact H0|reflexivity|exact D4|reflexivity|..]; try reflexivity.
    + unfold lock_for, on. cbn [l_acct set]. rewrite put_eq. change (l_acct (observe s) vid) with (acct_of s vid). rewrite acct_eq.
      apply lock_acct_with; assumption.
    + intros w Hw. unfold lock_for, on. cbn [l_acct set]. rewrite put_ne by exact Hw. reflexivity.
Qed.
End Step5.
