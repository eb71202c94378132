(** MVFits3.v -- C76: all calls. *)

From Verif Require Export MVFits2.

Section All.
Context (P : string -> string -> Prop) (s : state) (G : good P s) (c : ctx).
Notation me := (c_pred c).
Notation L := (observe s).
Notation now := (now_ms c).

Lemma at_inv k q : a_pos (l_acct L me) !! k = Some q -> exists p, v_lps (get_voter s me) !! k = Some p /\ q = lpp p.
Proof. rewrite pos_at. destruct (v_lps (get_voter s me) !! k) as [p|]; [|discriminate]. intros [= <-]. eauto. Qed.
Lemma at_pos_fwd k p : v_lps (get_voter s me) !! k = Some p -> a_pos (l_acct L me) !! k = Some (lpp p).
Proof. intros H. rewrite pos_at, H. reflexivity. Qed.

Lemma nf_mirror ext l :
  Forall (fun lp => lp.2 * E18 < U128_SIZE) l -> total_vp s + sum_by (fun lp => power lp.1 lp.2) l < U128_SIZE ->
  nf (operator_mirror_lps c s ext l).
Proof.
  intros HF Hs. pose proof (g_s _ _ G) as HS. unfold operator_mirror_lps, non_payable, assert_operator. nreq. nreq. cbn zeta.
  set (vid := pseudo_near_address ext). destruct (si_ex _ _ HS vid) as [l0 HX].
  destruct (sinv_power P s vid l0 HS HX) as [Hpw Hb].
  rewrite (sum_used_rep s _ vid l0 (ve_rep _ _ _ _ _ _ HX)) by lia. cbn [mbind res_bind].
  nadd; [lia|]. intros prev Ep. apply nf_bind.
  { apply nf_mapMr. intros lp Hlp. apply nf_calc.
    - rewrite Forall_forall in HF. apply HF, elem_of_list_In, Hlp.
    - pose proof (sum_ge (fun lp => power lp.1 lp.2) l lp Hlp) as Hle. cbn beta in Hle. lia. }
  intros vps Hvps. pose proof (powers_of _ _ Hvps) as Ev.
  assert (Es : sumN vps = sum_by (fun lp => power lp.1 lp.2) l) by (rewrite Ev; reflexivity).
  apply nf_bind; [eapply nf_eq, sum128_Ok; split; [reflexivity|lia]|]. intros new Hnew. apply sum128_Ok in Hnew as [-> _].
  destruct (mirror_loop_fuel P (S (vote_entries s (get_voter s vid))) s vid (get_voter s vid) (used l0)
    (sumN vps) l0) as [[[s1 v1] u1] Hloop]; auto.
  { exact (si_nd _ _ HS). }
  { intros a o. apply (sinv_own P s vid l0 a o HS HX). }
  { lia. }
  { rewrite (entries_rep _ _ _ _ (ve_rep _ _ _ _ _ _ HX)). lia. }
  rewrite Hloop. cbn [mbind res_bind]. apply mirror_loop_shape in Hloop as (_ & vs & hv & hp & E1).
  apply nf_bind.
  - apply (nf_foldM (fun sv r => Forall (fun lp => lp.2 * E18 < U128_SIZE) r /\
      total_vp sv.1 + sum_by (fun lp => power lp.1 lp.2) r < U128_SIZE /\ v_avail sv.2 <= total_vp sv.1)).
    + cbn [fst snd]. split; [exact HF|]. split; [rewrite E1; exact Hs|]. cbn. lia.
    + intros [s2 v2] lp r (HF2 & Hs2 & Ha2). cbn [fst snd] in *. rewrite sum_by_cons in Hs2.
      unfold internal_create_locking_position, assert_lps_room. nreq. nreq.
      apply nf_bind; [apply nf_calc; [apply Forall_inv in HF2; exact HF2|lia]|]. intros vp Evp. apply power_calc in Evp as ->.
      nadd; [lia|]. intros ? _. nadd; [lia|]. intros; exact I.
    + intros [s2 v2] lp r [s3 v3] (HF2 & Hs2 & Ha2) E. cbn [fst snd] in *. rewrite sum_by_cons in Hs2.
      apply create_lp_inv in E as (vp & Evp & _ & _ & _ & _ & -> & ->). apply power_calc in Evp as ->.
      split; [apply Forall_cons_1 in HF2 as [_ HF2]; exact HF2|]. cbn. split; lia.
  - intros [s2 v3] _. nsub. intros ? _. nsub. intros; exact I.
Qed.

Lemma mirror_fits ext l s' : operator_mirror_lps c s ext l = Ok s' ->
  Forall (fun lp => lp.2 * E18 < U128_SIZE) l /\ total_vp s + sum_by (fun lp => power lp.1 lp.2) l < U128_SIZE.
Proof.
  intros H. unfold operator_mirror_lps in H. apply bind_Ok in H as (? & _ & H). apply bind_Ok in H as (? & _ & H). cbn zeta in H.
  apply bind_Ok in H as (used & _ & H). apply bind_Ok in H as (prev & _ & H). apply bind_Ok in H as (vps & Hv & H).
  apply bind_Ok in H as (new & _ & H). apply bind_Ok in H as ([[s1 v1] used1] & Hl & H).
  apply bind_Ok in H as ([s2 v3] & Hf & _). apply mirror_loop_shape in Hl as (_ & vs & hv & hp & ->).
  split.
  - clear -Hv. revert vps Hv. induction l as [|lp l IH]; intros vps Hv; [constructor|]. cbn [mapMr] in Hv.
    apply bind_Ok in Hv as (x & Hx & Hv). apply bind_Ok in Hv as (y & Hy & _). apply calc_Ok in Hx as (_ & Hx & _).
    apply List.Forall_cons; [exact Hx|]. eapply IH; exact Hy.
  - pose proof (powers_of _ _ Hv) as Ev. destruct (create_lps_loop _ _ _ _ _ _ Hv Hf) as (_ & _ & _ & Hb).
    assert (Es : sumN vps = sum_by (fun lp => power lp.1 lp.2) l) by (rewrite Ev; reflexivity). rewrite Es in Hb.
    destruct l as [|lp l]; [rewrite sum_by_nil, N.add_0_r; apply (total_fit P s G c)|]. apply Hb. discriminate.
Qed.

Lemma fits_nf o : named_once o -> adds_no_tokens o = false -> allowed c s o -> fits c L o -> nf (exec c s o).
Proof.
  intros Hno Ho Ha H. destruct o; try discriminate Ho; clear Ho; cbn [exec]; cbn [fits] in H; cbv zeta in H; cbn [named_once] in Hno;
    try apply nf_noeff.
  - (* claim and lock *)
    rewrite lf in H. unfold claim_and_lock, non_payable, assert_min_deposit_amount. nreq. nreq. cbn zeta.
    apply nf_bind; [apply nf_rem_mp|]. intros s1 E1. apply remove_claimable_mpdao_inv in E1 as (_ & _ & ->).
    nexp. intros v Hv. apply (gv_inv s) in Hv as ->.
    apply nf_bind; [|intros [? ?] _; exact I]. apply nf_deposit; [apply (avail_le P s G)|exact H].
  - (* partial unlock *)
    unfold non_payable. nreq. unfold unlock_partial_position. cbn zeta. nexp. intros v Hv. apply gv_inv in Hv as ->.
    unfold get_position at 1. nexp. intros p Hp. apply expect_Ok in Hp. destruct (N.eqb_spec amount (lp_amount p)) as [E|Hne].
    + unfold unlock_position. cbn zeta. nexp. intros v Hv. unfold get_position. nexp. intros q _. nreq. nsub. intros; exact I.
    + specialize (H _ (at_pos_fwd _ _ Hp) Hne). rewrite u128_eq in H. change (10 ^ 18) with E18 in H.
      nreq. nsub. intros d _. nreq. unfold assert_at_least_1_mpdao at 1. nreq.
      destruct Ha as (_ & j & Hj & Ha). apply get_pos in Hj as (p' & Hp' & ->). rewrite Hp in Hp'. injection Hp' as <-.
      apply nf_bind.
      { apply nf_calc; [exact H|]. destruct Ha as [[Ha _]|(_ & _ & _ & _ & _ & Ha & _)]; [contradiction|].
        pose proof (avail_le P s G me) as A1. pose proof (total_fit P s G c) as A2.
        change (power (lp_days p) amount <= v_avail (get_voter s me)) in Ha. lia. }
      intros vp _. nreq. nreq. apply nf_bind; [unfold create_unlocking_position, assert_lps_room; nreq; exact I|]. intros v1 _.
      nsub. intros ? _. nsub. intros ? _. unfold assert_at_least_1_mpdao. nreq. nsub. intros; exact I.
  - (* extend *)
    unfold locking_position_extend_days, non_payable. nreq. cbn zeta. nexp. intros v Hv. apply gv_inv in Hv as ->.
    unfold get_position. nexp. intros p Hp. apply expect_Ok in Hp. destruct (H _ (at_pos_fwd _ _ Hp)) as (H1 & H2 & H3).
    rewrite !u128_eq in *. cbn [p_amount p_vp lpp] in *. change (10 ^ 18) with E18 in H1. change (l_power L) with (total_vp s) in H3.
    nreq. nreq. apply nf_bind; [apply nf_calc; assumption|]. intros nvp E. apply power_calc in E as ->. nsub. intros d Ed.
    apply sub128_Ok in Ed as [-> _]. nadd; [exact H3|]. intros ? _. nadd; [|intros; exact I]. pose proof (avail_le P s G me). lia.
  - (* relock *)
    unfold relock_position, non_payable. nreq. cbn zeta. nexp. intros v Hv. apply gv_inv in Hv as ->.
    unfold get_position. nexp. intros p Hp. apply expect_Ok in Hp. destruct (H _ (at_pos_fwd _ _ Hp)) as (H1 & H2).
    rewrite u128_eq in H1. cbn [p_amount lpp] in *. rewrite pos_list, take_out_map in H2 by (eapply lookup_lt_Some; exact Hp). rewrite lf_eq in H2.
    nreq. nexp. intros t _. apply nf_bind; [destruct (_ <? _); [apply nf_require; nbig|exact I]|]. intros _ _.
    nadd; [exact H1|]. intros x Hx. apply add128_Ok in Hx as [-> _]. apply nf_bind; [unfold remove_position; nreq; exact I|].
    intros v1 Ev. apply remove_position_inv in Ev as [_ ->]. nsub. intros b _. apply nf_bind; [|intros [? ?] _; exact I].
    apply nf_deposit; [apply (avail_le P s G)|exact H2].
  - (* partial relock *)
    unfold relock_partial_position, non_payable. nreq. cbn zeta. nexp. intros v Hv. apply gv_inv in Hv as ->.
    unfold get_position. nexp. intros p Hp. apply expect_Ok in Hp. nreq. nreq.
    destruct Ha as (_ & _ & _ & j & t & Hj & Hu & _). apply get_pos in Hj as (p' & Hp' & ->). rewrite Hp in Hp'. injection Hp' as <-.
    cbn in Hu. destruct (H _ t (at_pos_fwd _ _ Hp) Hu) as (H1 & H2 & H3). rewrite u128_eq in H1.
    nadd; [exact H1|]. intros x Hx. apply add128_Ok in Hx as [-> _]. nreq. rewrite Hu. cbn [expect mbind res_bind].
    rewrite (relock_part_pos s c _ _ t _ _ Hp Hu) in H2. unfold ends in *. cbn [p_amount p_days lpp] in *. unfold days_to_millis in *.
    destruct (now <? t + lp_days p * 86400000).
    + destruct H3 as [H3 H4]. rewrite u128_eq in H3, H4. change (10 ^ 18) with E18 in H3.
      apply nf_bind.
      { nreq. nsub. intros na Hna. apply sub128_Ok in Hna as [-> _]. nreq. nreq. apply nf_bind; [apply nf_calc; assumption|]. intros; exact I. }
      intros v1 Ev. apply bind_Ok in Ev as (? & _ & Ev). apply bind_Ok in Ev as (na & Hna & Ev). apply sub128_Ok in Hna as [-> _].
      apply bind_Ok in Ev as (? & _ & Ev). apply bind_Ok in Ev as (? & _ & Ev). apply bind_Ok in Ev as (nvp & Hn & [= <-]).
      apply power_calc in Hn as ->. nsub. intros b _. apply nf_bind; [|intros [? ?] _; exact I].
      apply nf_deposit; [apply (avail_le P s G)|]. cbn [v_lps replace_position set].
      rewrite <- Hu in H2. change (mkPos (lp_amount p - afp) (lp_days p) (power (lp_days p) (lp_amount p - afp)) (lp_unl p))
        with (lpp (p <| lp_amount := lp_amount p - afp |> <| lp_vp := power (lp_days p) (lp_amount p - afp) |>)) in H2.
      rewrite <- map_lpp_insert, lf_eq in H2. exact H2.
    + rewrite u128_eq, bal_eq in H3. apply nf_bind.
      { nsub. intros r Hr. apply sub128_Ok in Hr as [-> _]. nadd; [exact H3|]. intros b _. unfold remove_position. nreq. exact I. }
      intros v1 Ev. apply bind_Ok in Ev as (r & _ & Ev). apply bind_Ok in Ev as (b & _ & Ev). apply remove_position_inv in Ev as [_ ->].
      nsub. intros b2 _. apply nf_bind; [|intros [? ?] _; exact I]. rewrite lf_eq in H2.
      apply nf_deposit; [apply (avail_le P s G)|exact H2].
  - (* from the balance *)
    rewrite lf in H. unfold relock_from_balance, non_payable. nreq. cbn zeta. nexp. intros v Hv. apply gv_inv in Hv as ->.
    nreq. nreq. nsub. intros b _. apply nf_bind; [|intros [? ?] _; exact I]. apply nf_deposit; [apply (avail_le P s G)|exact H].
  - (* clear *)
    rewrite u128_eq in H. destruct Ha as (_ & _ & Ha). unfold clear_locking_position, non_payable. nreq. nreq. cbn zeta.
    nexp. intros v Hv. apply gv_inv in Hv as ->. apply nf_bind; [|intros; exact I].
    apply nf_clear; [exact Hno| |exact H]. intros k Hk. eapply get_pos_some, Ha, Hk.
  - (* migration *)
    unfold migration_create_lps, non_payable. nreq. nreq. apply nf_bind.
    + eapply nf_mig; [| |apply (avail_le P s G)|exact H]; [reflexivity|apply pos_list].
    + intros [s1 v1] _. destruct data as [d|]; [|exact I]. destruct (om_get (user_data s1) me); exact I.
  - (* mirror *)
    destruct H as [H1 H2]. rewrite u128_eq in H2. apply nf_mirror; [|exact H2].
    eapply Forall_impl; [exact H1|]. cbn. intros x Hx. rewrite u128_eq in Hx. exact Hx.
  - (* withdraw *)
    rewrite u128_eq in H. destruct Ha as (_ & Ha & _). apply nf_withdraw; [exact Hno| |exact H]. intros k Hk. eapply get_pos_some, Ha, Hk.
  - rewrite u128_eq, all_bal in H. unfold withdraw_all. nexp. intros v Hv. apply gv_inv in Hv as ->.
    apply nf_withdraw; [apply unlocked_indexes_NoDup| |exact H].
    intros k Hk. apply unlocked_indexes_in in Hk as (p & Hk & _). eapply lookup_lt_Some; exact Hk.
  - (* refund of mpDAO *)
    unfold after_transfer_mpdao_callback, assert_private, non_payable. nreq. nreq. destruct ok; [exact I|]. cbn zeta.
    specialize (H eq_refl). rewrite u128_eq, bal_eq in H. nadd; [exact H|]. intros; exact I.
  - (* refund of stNEAR *)
    unfold after_transfer_stnear_callback, assert_private, non_payable. nreq. nreq. destruct ok; [exact I|].
    specialize (H eq_refl). rewrite u128_eq in H. unfold add_claimable_stnear. nreq.
    rewrite (add_claimable_fwd _ _ _ _ (proj2 (g_c _ _ G)) H). exact I.
  - (* transfer *)
    destruct Ha as (H0 & Hsl & Ha). destruct (after_prefix "for-claims:" msg) as [rest|] eqn:Ea.
    + destruct Ha as (l & Hl & HF & Ha). change (ci_mpdao (get_contract_info s)) with (mpdao_addr s) in Ha. change (ci_stnear (get_contract_info s)) with (stnear_addr s) in Ha.
      change (l_mpdao L) with (mpdao_addr s) in H. destruct (c17_accepted c s sender amount msg rest l) as [s' E]; auto.
      * exact (g_c _ _ G).
      * apply Hsl. apply after_prefix_Some in Ea as [_ Ea]. exact Ea.
      * destruct Ha as [[Hp Ha]|(Hnp & Hp & Ha)].
        -- rewrite decide_True in H by exact Hp. rewrite !u128_eq in H. left. destruct H. auto.
        -- rewrite decide_False in H by exact Hnp. rewrite !u128_eq in H. right. destruct H. auto.
      * cbn [exec] in E. eapply nf_eq. exact E.
    + apply nf_bind; [|intros [? ?] _; exact I]. unfold ft_on_transfer, non_payable. nreq. rewrite fc_spec, Ea by exact Hsl. cbn [mbind res_bind].
      nreq. destruct Ha as (_ & _ & Hs1 & _). rewrite pair_spec by exact Hs1. cbn [mbind res_bind]. apply nf_bind.
      { destruct (after_prefix "[" msg); [nexp; intros ? _; nreq; nreq; exact I|nexp; intros; exact I]. }
      intros [w days] E. assert (El : lock_target c sender msg = Some (w, days)).
      { unfold lock_target. destruct (after_prefix "[" msg).
        - apply bind_Ok in E as (pr & Hpr & E). apply expect_Ok in Hpr. apply bind_Ok in E as (? & _ & E). apply bind_Ok in E as (? & _ & [= ->]). exact Hpr.
        - apply bind_Ok in E as (d & Hd & [= <- <-]). apply expect_Ok in Hd. rewrite Hd. reflexivity. }
      apply H in El. rewrite lf in El. unfold assert_min_deposit_amount. nreq. apply nf_bind; [|intros [? ?] _; exact I].
      apply nf_deposit; [apply (avail_le P s G)|exact El].
Qed.

Lemma ok_fits o s' e : named_once o -> uncl_fit s -> exec c s o = Ok (s', e) -> fits c L o.
Proof.
  intros Hno HU H0. pose proof H0 as H. destruct o; cbn [exec] in H; cbn [fits]; cbv zeta; cbn [named_once] in Hno; try exact I;
    try (apply noeff_Ok in H as [H ->]).
  - rewrite lf. unfold claim_and_lock in H. apply bind_Ok in H as (? & _ & H). apply bind_Ok in H as (? & _ & H). cbn zeta in H.
    apply bind_Ok in H as (s1 & Hr & H). apply remove_claimable_mpdao_inv in Hr as (_ & _ & ->).
    apply bind_Ok in H as (v & Hv & H). apply (gv_inv s) in Hv as ->. apply bind_Ok in H as ([s2 v2] & H & _).
    apply deposit_fits in H. exact H.
  - intros q Hq Hne. apply at_inv in Hq as (p & Hp & ->). apply bind_Ok in H as (? & _ & H).
    apply unlock_partial_inv in H as [(_ & v & p' & Hv & Hp' & Ha)|(v & p' & vp & Hv & Hp' & _ & _ & _ & _ & Hc & _)];
      apply get_voter_Some in Hv; subst v; rewrite Hp in Hp'; injection Hp' as <-; [contradiction|].
    apply calc_Ok in Hc as (_ & Hc & _). apply u128_eq. exact Hc.
  - intros q Hq. apply at_inv in Hq as (p & Hp & ->). apply extend_inv in H as (v & p' & nvp & Hv & Hp' & _ & _ & _ & Hc & _ & Ht & _).
    apply get_voter_Some in Hv; subst v; rewrite Hp in Hp'; injection Hp' as <-. pose proof Hc as Hc2. apply power_calc in Hc as ->.
    apply calc_Ok in Hc2 as (_ & H1 & _ & H2). rewrite !u128_eq. split; [exact H1|]. split; [exact H2|exact Ht].
  - intros q Hq. apply at_inv in Hq as (p & Hp & ->). unfold relock_position in H. apply bind_Ok in H as (? & _ & H). cbn zeta in H.
    apply bind_Ok in H as (v & Hv & H). apply gv_inv in Hv as ->. apply bind_Ok in H as (p' & Hp' & H). apply expect_Ok in Hp'.
    rewrite Hp in Hp'. injection Hp' as <-. do 3 apply bind_Ok in H as (? & _ & H). apply bind_Ok in H as (am & Ham & H).
    apply add128_Ok in Ham as [-> Ham]. apply bind_Ok in H as (v1 & Hv1 & H). apply remove_position_inv in Hv1 as [_ ->].
    apply bind_Ok in H as (b & _ & H). apply bind_Ok in H as ([s2 v2] & H & _). apply deposit_fits in H.
    split; [apply u128_eq; exact Ham|]. rewrite pos_list, take_out_map by (eapply lookup_lt_Some; exact Hp). apply lf_eq. exact H.
  - intros q t Hq Hu. apply at_inv in Hq as (p & Hp & ->). cbn [p_since lpp] in Hu. rewrite (relock_part_pos s c _ _ t _ _ Hp Hu).
    unfold relock_partial_position in H. apply bind_Ok in H as (? & _ & H). cbn zeta in H.
    apply bind_Ok in H as (v & Hv & H). apply gv_inv in Hv as ->. apply bind_Ok in H as (p' & Hp' & H). apply expect_Ok in Hp'.
    rewrite Hp in Hp'. injection Hp' as <-. do 2 apply bind_Ok in H as (? & _ & H). apply bind_Ok in H as (am & Ham & H).
    apply add128_Ok in Ham as [-> Ham]. apply bind_Ok in H as (? & _ & H). rewrite Hu in H. cbn [expect mbind res_bind] in H.
    split; [apply u128_eq; exact Ham|]. unfold ends. cbn [p_amount p_days lpp] in *. unfold days_to_millis in H.
    destruct (now <? t + lp_days p * 86400000).
    + apply bind_Ok in H as (v1 & Ev & H). apply bind_Ok in Ev as (? & _ & Ev). apply bind_Ok in Ev as (na & Hna & Ev). apply sub128_Ok in Hna as [-> _].
      apply bind_Ok in Ev as (? & _ & Ev). apply bind_Ok in Ev as (? & _ & Ev). apply bind_Ok in Ev as (nvp & Hn & [= <-]).
      pose proof Hn as Hc. apply power_calc in Hn as ->. apply calc_Ok in Hc as (_ & Hc1 & _ & Hc2).
      apply bind_Ok in H as (b & _ & H). apply bind_Ok in H as ([s2 v2] & H & _). apply deposit_fits in H. cbn [v_lps replace_position set] in H.
      split; [|rewrite !u128_eq; split; [exact Hc1|exact Hc2]]. rewrite <- Hu.
      change (mkPos (lp_amount p - afp) (lp_days p) (power (lp_days p) (lp_amount p - afp)) (lp_unl p))
        with (lpp (p <| lp_amount := lp_amount p - afp |> <| lp_vp := power (lp_days p) (lp_amount p - afp) |>)).
      rewrite <- map_lpp_insert, lf_eq. exact H.
    + apply bind_Ok in H as (v1 & Ev & H). apply bind_Ok in Ev as (r & Hr & Ev). apply sub128_Ok in Hr as [-> _].
      apply bind_Ok in Ev as (b & Hb & Ev). apply add128_Ok in Hb as [-> Hb]. apply remove_position_inv in Ev as [_ ->].
      apply bind_Ok in H as (b2 & _ & H). apply bind_Ok in H as ([s2 v2] & H & _). apply deposit_fits in H.
      split; [apply lf_eq; exact H|]. rewrite u128_eq, bal_eq. exact Hb.
  - rewrite lf. unfold relock_from_balance in H. apply bind_Ok in H as (? & _ & H). cbn zeta in H.
    apply bind_Ok in H as (v & Hv & H). apply gv_inv in Hv as ->. do 3 apply bind_Ok in H as (? & _ & H).
    apply bind_Ok in H as ([s2 v2] & H & _). apply deposit_fits in H. exact H.
  - apply clear_positions_inv in H as (v & v1 & Hv & _ & Hc & _). apply get_voter_Some in Hv. subst v.
    apply u128_eq. eapply (clear_fits P s G); [exact Hno|exact Hc].
  - unfold migration_create_lps in H. do 2 apply bind_Ok in H as (? & _ & H). apply bind_Ok in H as (r & H & _).
    eapply mig_fits; [| |exact H]; [reflexivity|apply pos_list].
  - apply mirror_fits in H as [H1 H2]. split; [|apply u128_eq; exact H2].
    eapply Forall_impl; [exact H1|]. cbn. intros x Hx. rewrite u128_eq. exact Hx.
  - apply u128_eq. eapply (withdraw_fits P s G); [exact Hno|exact H].
  - unfold withdraw_all in H. apply bind_Ok in H as (v & Hv & H). apply gv_inv in Hv as ->. rewrite u128_eq, all_bal.
    eapply (withdraw_fits P s G); [apply unlocked_indexes_NoDup|exact H].
  - intros ->. unfold after_transfer_mpdao_callback in H. do 2 apply bind_Ok in H as (? & _ & H). cbn zeta in H.
    apply bind_Ok in H as (b & Hb & _). apply add128_Ok in Hb as [_ Hb]. rewrite u128_eq, bal_eq. exact Hb.
  - intros ->. unfold after_transfer_stnear_callback in H. do 2 apply bind_Ok in H as (? & _ & H).
    apply add_claimable_stnear_inv in H as (_ & _ & H & _). apply u128_eq. exact H.
  - apply bind_Ok in H as ([s1 n] & H & [= <- _]). unfold ft_on_transfer in H. apply bind_Ok in H as (? & _ & H).
    apply bind_Ok in H as (fc & Hfc & H). destruct fc.
    + apply for_claims_true in Hfc. rewrite Hfc. clear Hfc. apply bind_Ok in H as (l & _ & H). apply bind_Ok in H as (? & _ & H).
      apply bind_Ok in H as (s2 & H & [= <- _]). pose proof (dist_fit _ _ _ _ _ HU H) as HU2.
      assert (Hacc : bool_decide (me = mpdao_addr s) = true /\ accum_mp s + amount < U128_SIZE \/
                     bool_decide (me = mpdao_addr s) = false /\ accum_st s + amount < U128_SIZE).
      { unfold distribute_for_claims in H. apply bind_Ok in H as ([s3 d] & H & H2). apply bind_Ok in H2 as (? & Hd & _).
        apply require_Ok in Hd. apply N.eqb_eq in Hd. subst d. destruct (bool_decide (me = mpdao_addr s)).
        - left. split; [reflexivity|]. apply bind_Ok in H as ([s4 d4] & H & H2). apply bind_Ok in H2 as (acc & Hacc & [= _ ->]).
          apply dist_loop_mp in H as (_ & _ & E). cbv zeta in E. rewrite E in Hacc. apply add128_Ok in Hacc as [_ Hacc]. exact Hacc.
        - right. split; [reflexivity|]. destruct (bool_decide (me = stnear_addr s)); [|discriminate].
          apply bind_Ok in H as ([s4 d4] & H & H2). apply bind_Ok in H2 as (acc & Hacc & [= _ ->]).
          apply dist_loop_st in H as (_ & _ & E). cbv zeta in E. rewrite E in Hacc. apply add128_Ok in Hacc as [_ Hacc]. exact Hacc. }
      change (l_mpdao L) with (mpdao_addr s). apply distribute_inv in H as [HF H]. destruct (g_c _ _ G) as [Cm Cs].
      destruct Hacc as [[Hb Hacc]|[Hb Hacc]]; [apply bool_decide_eq_true in Hb|apply bool_decide_eq_false in Hb].
      * rewrite decide_True by exact Hb. destruct H as [(_ & Ha & E)|(Hn & _)]; [|contradiction]. cbv zeta in E.
        rewrite !u128_eq. split; [|exact Hacc]. destruct (CI_dist mp_unit l _ _ ltac:(reflexivity) Cm HF) as (_ & Ed & _).
        destruct HU2 as [HU2 _]. rewrite E in HU2. cbn [uncl_mp set] in HU2. rewrite Ed in HU2.
        change (l_mp_total L) with (uncl_mp s). rewrite Ha. exact HU2.
      * rewrite decide_False by exact Hb. destruct H as [(Hp & _)|(_ & _ & Ha & E)]; [contradiction|]. cbv zeta in E.
        rewrite !u128_eq. split; [|exact Hacc]. destruct (CI_dist st_unit l _ _ ltac:(reflexivity) Cs HF) as (_ & Ed & _).
        destruct HU2 as [_ HU2]. rewrite E in HU2. cbn [uncl_st set] in HU2. rewrite Ed in HU2.
        change (l_st_total L) with (uncl_st s). rewrite Ha. exact HU2.
    + apply for_claims_false in Hfc. rewrite Hfc. intros w days Hl. rewrite lf.
      apply bind_Ok in H as (? & _ & H). apply bind_Ok in H as (ip & Hip & H). pose proof (pair_needs _ _ Hip) as Hs1.
      rewrite pair_spec in Hip by exact Hs1. apply Ok_inj in Hip. subst ip.
      apply bind_Ok in H as ([w' days'] & Hvd & H). apply bind_Ok in H as (? & _ & H). apply bind_Ok in H as ([s2 v2] & H & _).
      apply deposit_fits in H. unfold lock_target in Hl. destruct (after_prefix "[" msg).
      * apply bind_Ok in Hvd as (pr & Hpr & Hvd). apply expect_Ok in Hpr. do 2 apply bind_Ok in Hvd as (? & _ & Hvd). injection Hvd as ->.
        rewrite Hl in Hpr. injection Hpr as <- <-. exact H.
      * apply bind_Ok in Hvd as (d & Hd & [= <- <-]). apply expect_Ok in Hd. rewrite Hd in Hl. injection Hl as <- <-. exact H.
Qed.

End All.

Lemma c76 a s0 tr c o :
  mv_new a = Ok s0 -> collision_free (tr ++ [(c, o)]) -> no_zero_votes (tr ++ [(c, o)]) -> named_once o ->
  let s := run s0 tr in
  (exists s' e, exec c s o = Ok (s', e)) <-> enabled c (observe s) o /\ fits c (observe s) o.
Proof.
  intros H0 Hc Hz Hno s. pose proof (good_run a s0 tr [(c, o)] H0 Hc Hz) as G. fold s in G.
  destruct (c72 a s0 tr c o H0 Hc Hz Hno) as [A B]. fold s in A, B. split.
  - intros (s' & e & H). split; [apply (A _ _ H)|]. eapply ok_fits; [exact G|exact Hno|eapply uncl_run; exact H0|exact H].
  - intros [He Hf]. destruct (B He) as [HB|(m & HB & Hm)]; [exact HB|]. exfalso.
    pose proof (proj1 (enabled_allowed s c o) He) as Ha. destruct (adds_no_tokens o) eqn:Eo.
    + destruct (proj2 (c71_no_tokens a s0 tr c o H0 Hc Hz Eo) Ha) as (s' & e & E). fold s in E. rewrite HB in E. discriminate E.
    + pose proof (fits_nf _ s G c o Hno Eo Ha Hf) as Hn. rewrite HB in Hn. exact (Hn Hm).
Qed.
