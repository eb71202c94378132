(** MVAccept3.v -- C71: a call is accepted exactly when it is allowed. *)

From Verif Require Export MVAccept2.

(** ** Collecting unlocked positions *)
Lemma collected_clr now s vid (l : list nat) :
  collected now s vid (.∈ l) = v_bal (get_voter s vid) + clr now l 0 (v_lps (get_voter s vid)).
Proof.
  unfold collected. f_equal. destruct (kept_filter now l (v_lps (get_voter s vid)) 0) as [_ ->]. reflexivity.
Qed.

Lemma collected_all now s vid :
  collected now s vid (fun _ => True) = collected now s vid (.∈ unlocked_indexes now (v_lps (get_voter s vid))).
Proof.
  unfold collected. f_equal. apply sum_by_ext. intros j Hj. rewrite get_all_lps in Hj.
  apply imap_In in Hj as (i & p & Hp & ->). cbn. destruct (is_unlocked now p) eqn:E; [|reflexivity]. cbn.
  symmetry. rewrite bool_decide_true; [reflexivity|]. apply unlocked_indexes_in. eauto.
Qed.

Lemma collected_reg now s vid Q `{!forall i, Decision (Q i)} : 0 < collected now s vid Q -> vid ∈ voter_ids s.
Proof.
  intros Hpos. destruct (om_get (voters s) vid) as [v|] eqn:E; [eapply om_get_Some_key; exact E|]. exfalso.
  unfold collected, raw_balance in Hpos. rewrite get_all_lps in Hpos. unfold get_voter in Hpos. rewrite E in Hpos. cbn in Hpos. rewrite sum_by_nil in Hpos. lia.
Qed.

Section Exact.
Context (P : string -> string -> Prop) (s : state) (G : good P s) (c : ctx).

Lemma collected_v1 vid l v1 :
  NoDup l -> clear_fully_unlocked_positions (now_ms c) (get_voter s vid) l = Ok v1 ->
  v_bal v1 = collected (now_ms c) s vid (.∈ l) /\
  forall k, k ∈ l -> is_Some (get_locking_position (now_ms c) s k vid).
Proof.
  intros Hnd H. apply clear_exact_inv in H as (Hin & _ & Hb & _); [|exact Hnd|apply (g_bal _ _ G vid)].
  split; [rewrite Hb, collected_clr; reflexivity|]. intros k Hk. apply get_pos_some, Hin, Hk.
Qed.

Lemma oo_withdraw_all : c_deposit c = 1 -> 0 < collected (now_ms c) s (c_pred c) (fun _ => True) -> oo (withdraw_all c s).
Proof.
  intros H0 Hp. pose proof (collected_reg _ _ _ _ Hp) as Hr. rewrite collected_all in Hp.
  unfold withdraw_all. rewrite (gvop _ _ (reg_voter _ _ Hr)). cbn [mbind res_bind].
  eapply oo_withdraw with (total := _); eauto.
  - apply unlocked_indexes_NoDup.
  - intros k Hk. apply unlocked_indexes_in in Hk as (p & Hk & _). eapply lookup_lt_Some; exact Hk.
  - intros v1 Hv. apply collected_v1 in Hv as [Hv _]; [exact Hv|apply unlocked_indexes_NoDup].
  - discriminate.
Qed.

Definition tgt (o : op) : Prop :=
  match o with
  | Vote vp a _ => P (c_pred c) a /\ vp <> 0
  | VoteDelegated e vp a _ => P (evm_account e) a /\ vp <> 0
  | _ => True
  end.

Lemma allowed_oo o : named_once o -> tgt o -> allowed c s o -> oo (exec c s o).
Proof.
  intros Hno Ht H. destruct o; cbn [exec]; cbn [allowed] in H; cbv zeta in H; cbn [named_once tgt] in Hno, Ht;
    cbn [get_contract_info ci_owner ci_operator ci_mpdao ci_stnear ci_prev_gov ci_reg_cost ci_min_deposit ci_max_lps ci_max_vps
         ci_min_unbond ci_max_unbond] in H; try apply oo_noeff.
  - destruct H as [H1 H2]. unfold set_stnear_contract. rewrite y1, own1 by assumption. exact I.
  - destruct H as [H1 H2]. unfold set_operator_id. rewrite y1, own1 by assumption. exact I.
  - destruct H as [H1 H2]. unfold set_owner_id. rewrite y1, own1 by assumption. exact I.
  - destruct H as [H1 H2]. unfold update_registration_cost. rewrite np0, own1 by assumption. exact I.
  - unfold update_airdrop_user_data. oreq; [apply N.eqb_eq; exact H|exact I].
  - destruct H as [H1 H2]. unfold operator_multi_set_airdrop_data. rewrite np0, opr1 by assumption. exact I.
  - destruct H as (H0 & H1 & H2 & H3 & H4). eapply oo_claim_lock; eauto.
  - destruct H as [H0 H]. destruct (c18_claim_stnear c s amount (g_c _ _ G) H0 H) as [s' E]. eapply oo_eq; exact E.
  - destruct H as (H0 & j & Hj & Hv). apply get_pos in Hj as (p & Hp & ->). rewrite np0 by exact H0. cbn [mbind res_bind].
    eapply oo_unlock; eauto.
  - destruct H as (H0 & j & Hj & H). apply get_pos in Hj as (p & Hp & ->). rewrite np0 by exact H0. cbn [mbind res_bind].
    eapply oo_unlock_partial; eauto. rewrite count_spec in H. exact H.
  - destruct H as (H0 & j & Hj & Hl & H1 & H2 & H3). apply get_pos in Hj as (p & Hp & ->).
    eapply oo_extend; eauto. cbn in Hl. unfold is_locked in Hl. destruct (lp_unl p); [discriminate|reflexivity].
  - destruct H as (H0 & Hb & j & t & Hj & Hu & H1 & H2). apply get_pos in Hj as (p & Hp & ->). eapply oo_relock; eauto.
  - destruct H as (H0 & Hb & Hm & j & t & Hj & Hu & H1 & H2 & H3). apply get_pos in Hj as (p & Hp & ->).
    eapply oo_relock_partial; eauto.
  - destruct H as (H0 & H1 & H2 & H3 & H4). eapply oo_relock_balance; eauto.
  - destruct H as (H0 & H1 & H2). unfold clear_locking_position. rewrite np0 by exact H0. cbn [mbind res_bind].
    destruct l as [|k l]; [contradiction|]. cbn [require mbind res_bind]. cbn zeta.
    assert (Hk : (k < length (v_lps (get_voter s (c_pred c))))%nat) by (eapply get_pos_some, (H2 k); left).
    apply lookup_lt_is_Some in Hk as [p Hk]. rewrite (gvop _ _ (pos_voter _ _ _ _ Hk)). cbn [mbind res_bind].
    apply oo_bind; [|intros; exact I]. apply oo_clear; [exact Hno|]. intros n Hn. eapply get_pos_some, H2, Hn.
  - destruct H as [H0 H]. destruct Ht as [Ht Hz]. unfold vote. rewrite np0 by exact H0. cbn [mbind res_bind].
    eapply oo_vote; eauto. lia.
  - destruct H as (H0 & H1 & H2 & H3 & H4). eapply oo_rebalance; eauto.
  - destruct H as [H0 H]. unfold unvote. rewrite np0 by exact H0. cbn [mbind res_bind]. eapply oo_unvote; eauto.
  - destruct H as [H1 H2]. unfold set_lock_in_vote_filters. rewrite np0, opr1 by assumption. exact I.
  - destruct H as [H1 H2]. unfold update_min_unbond_period. rewrite y1, own1 by assumption. exact I.
  - destruct H as [H1 H2]. unfold update_max_unbond_period. rewrite y1, own1 by assumption. exact I.
  - destruct H as [H1 H2]. unfold set_prev_gov_contract. rewrite y1, own1 by assumption. exact I.
  - destruct H as (H0 & H1 & H2 & new & Hn & Hi & Hl). unfold migration_create_lps. rewrite np0 by exact H0. cbn [mbind res_bind].
    rewrite bool_decide_true by exact H1. cbn [require mbind res_bind].
    apply oo_bind.
    + eapply oo_mig; [exact G|]. split; [exact H2|]. exists new. split; [split; [exact Hn|]|rewrite count_spec in Hl; exact Hl].
      intros k. rewrite Hi, has_locked_spec. reflexivity.
    + intros [s1 v1] _. destruct data as [d|]; [|exact I]. destruct (om_get (user_data s1) (c_pred c)); exact I.
  - destruct H as (H0 & H1 & H2 & H3 & H4). eapply oo_mirror; eauto.
  - destruct H as [H1 H2]. unfold pre_delegate_evm_address. rewrite y1 by exact H1. cbn [mbind res_bind]. oreq; [|exact I].
    apply negb_true_iff. destruct (str_contains "." evm) eqn:E; [apply str_contains_occurs in E; contradiction|reflexivity].
  - destruct H as [H1 H2]. unfold operator_remove_pre_delegate. rewrite y1, opr1 by assumption. exact I.
  - destruct H as [H1 H2]. destruct (c22_confirm c s evm (g_d _ _ G) H1 H2) as [s' E]. cbn [exec] in E.
    apply noeff_Ok in E as [E _]. eapply oo_eq; exact E.
  - destruct H as [H1 H2]. unfold delegated_claim_stnear. rewrite (verify_ok P s G) by exact H1. cbn [mbind res_bind].
    unfold remove_claimable_stnear. rewrite (remove_claimable_fwd _ _ _ _ (proj2 (g_c _ _ G)) H2). exact I.
  - destruct H as (H0 & H1 & H2). destruct Ht as [Ht Hz]. unfold vote_delegated. rewrite np0 by exact H0. cbn [mbind res_bind].
    rewrite (verify_ok P s G) by exact H1. cbn [mbind res_bind]. eapply oo_vote; eauto. lia.
  - destruct H as (H0 & H1 & H2). unfold unvote_delegated. rewrite np0 by exact H0. cbn [mbind res_bind].
    rewrite (verify_ok P s G) by exact H1. cbn [mbind res_bind]. eapply oo_unvote; eauto.
  - destruct H as [H1 H2]. destruct (c22_remove c s evm (g_d _ _ G) H1 H2) as [s' E]. cbn [exec] in E.
    apply noeff_Ok in E as [E _]. eapply oo_eq; exact E.
  - destruct H as (H0 & H1 & H2 & H3). pose proof (collected_reg _ _ _ _ H2) as Hr. unfold withdraw.
    eapply oo_withdraw with (total := _); eauto.
    + intros k Hk. eapply get_pos_some, H1, Hk.
    + intros v1 Hv. apply collected_v1 in Hv as [Hv _]; [exact Hv|exact Hno].
    + intros a Ha. destruct (N.eqb_spec amount 0); [discriminate|]. injection Ha as <-. lia.
  - destruct H as [H0 H]. apply oo_withdraw_all; assumption.
  - destruct H as [H0 H]. unfold after_transfer_mpdao_callback. rewrite prv1, np0 by assumption. cbn [mbind res_bind].
    destruct ok; [exact I|]. cbn zeta. oadd. intros; exact I.
  - destruct H as (H0 & H1 & H2). unfold after_transfer_stnear_callback. rewrite prv1, np0 by assumption. cbn [mbind res_bind].
    destruct ok; [exact I|]. destruct H2 as [H2|H2]; [discriminate|]. unfold add_claimable_stnear.
    oreq; [apply N.ltb_lt; exact H2|]. apply oo_bind; [apply oo_add_claimable|]. intros [? ?] _. exact I.
  - destruct H as (H0 & Hsl & H). apply oo_bind; [|intros [? ?] _; exact I].
    unfold ft_on_transfer. rewrite np0 by exact H0. cbn [mbind res_bind]. rewrite fc_spec by exact Hsl. cbn [mbind res_bind].
    pose proof (fc_spec _ Hsl) as Hfc. destruct (after_prefix "for-claims:" msg) as [rest|] eqn:Ea.
    + apply for_claims_true in Hfc. rewrite Hfc in Ea. injection Ea as ->. destruct H as (l & Hl & HF & H).
      rewrite Hl. cbn [expect mbind res_bind]. oreq.
      { apply forallb_forall. intros p Hp. rewrite Forall_forall in HF. apply elem_of_list_In, HF in Hp. apply N.ltb_lt.
        change U64_SIZE with (2^64). lia. }
      apply oo_bind; [|intros; exact I]. apply oo_distribute; [|exact H].
      eapply Forall_impl; [exact HF|]. cbn. intros; lia.
    + destruct H as (Hp & Hm & Hs1 & vid & days & Hl & H). rewrite (bool_decide_true (c_pred c = mpdao_addr s)) by exact Hp. cbn [require mbind res_bind].
      rewrite pair_spec by exact Hs1. cbn [mbind res_bind]. destruct (can_lock_room _ _ _ Hl) as (L1 & L2 & L3).
      apply oo_bind.
      { destruct (after_prefix "[" msg).
        - destruct H as (Hj & Hd & Ho). rewrite Hj. cbn [expect mbind res_bind]. oreq; [apply N.ltb_lt; exact Hd|].
          oreq; [apply bool_decide_eq_true; exact Ho|exact I].
        - destruct H as [Hd _]. rewrite Hd. exact I. }
      intros [vid' days'] E.
      assert (vid' = vid /\ days' = days) as [-> ->].
      { destruct (after_prefix "[" msg).
        - destruct H as (Hj & Hd & Ho). rewrite Hj in E. cbn [expect mbind res_bind] in E. apply bind_Ok in E as (? & _ & E).
          apply bind_Ok in E as (? & _ & E). injection E as <- <-. auto.
        - destruct H as [Hd ->]. rewrite Hd in E. injection E as <- <-. auto. }
      unfold assert_min_deposit_amount. oreq; [apply N.leb_le; exact Hm|]. apply oo_bind; [|intros [? ?] _; exact I].
      apply oo_deposit; auto. exact (g_max _ _ G).
Qed.

(** ** Accepted calls were allowed *)
Lemma Ok_inj {A} (x y : A) : Ok x = Ok y -> x = y.
Proof. intros H. injection H as H. exact H. Qed.
Lemma np_inv x : non_payable c = Ok x -> c_deposit c = 0.
Proof. intros H. apply require_Ok in H. nb. exact H. Qed.
Lemma y_inv x : assert_one_yocto c = Ok x -> c_deposit c = 1.
Proof. intros H. apply require_Ok in H. nb. exact H. Qed.
Lemma own_inv x : assert_only_owner c s = Ok x -> c_pred c = owner_id s.
Proof. intros H. apply require_Ok, bool_decide_eq_true in H. congruence. Qed.
Lemma opr_inv x : assert_operator c s = Ok x -> c_pred c = operator_id s.
Proof. intros H. apply require_Ok, bool_decide_eq_true in H. congruence. Qed.
Lemma prv_inv a x : assert_private c a = Ok x -> c_pred c = a.
Proof. intros H. apply require_Ok, bool_decide_eq_true in H. exact H. Qed.

Ltac vo Hv := pose proof (get_voter_Some _ _ _ Hv) as Eg.

Lemma can_lock_intro vid days amount vp l' :
  calculate_voting_power amount days = Ok vp -> min_unbond s <= days <= max_unbond s ->
  dep_lps (max_lps s) (v_lps (get_voter s vid)) amount days vp l' -> can_lock s vid days 0.
Proof.
  intros Hc Hb Hd. apply calc_Ok in Hc as (_ & _ & Hc & _). split; [exact Hb|]. split; [exact Hc|].
  apply dep_room in Hd; [|exact (g_max _ _ G)|apply (g_len _ _ G)].
  rewrite has_locked_spec, count_spec, N.add_0_r. exact Hd.
Qed.

Lemma can_lock_intro1 vid days amount vp l' k :
  (k < length (v_lps (get_voter s vid)))%nat ->
  calculate_voting_power amount days = Ok vp -> min_unbond s <= days <= max_unbond s ->
  dep_lps (max_lps s) (swap_remove k (v_lps (get_voter s vid))) amount days vp l' -> can_lock s vid days 1.
Proof.
  intros Hk Hc Hb Hd. apply calc_Ok in Hc as (_ & _ & Hc & _). split; [exact Hb|]. split; [exact Hc|].
  pose proof (g_len _ _ G vid) as Hle. pose proof (swap_remove_length k (v_lps (get_voter s vid)) Hk) as El.
  apply dep_room in Hd; [|exact (g_max _ _ G)|lia].
  rewrite has_locked_spec, count_spec. cbn [get_contract_info ci_max_lps].
  destruct Hd as [(p & Hp & Hx)|Hd]; [left; exists p; split; [|exact Hx]|right; lia].
  rewrite <- elem_of_list_In, (swap_remove_perm k _ Hk) in Hp. rewrite <- elem_of_list_In.
  rewrite delete_take_drop in Hp. rewrite <- (take_drop k (v_lps (get_voter s vid))). apply elem_of_app in Hp as [Hp|Hp]; apply elem_of_app; [auto|].
  right. apply elem_of_list_lookup in Hp as [n Hn]. apply elem_of_list_lookup. exists (S n). rewrite lookup_drop in *.
  rewrite <- Hn. f_equal. lia.
Qed.

Lemma withdraw_needs l amt s' e :
  NoDup l -> internal_withdraw c s (c_pred c) l amt = Ok (s', e) ->
  c_deposit c = 1 /\ (forall k, k ∈ l -> is_Some (get_locking_position (now_ms c) s k (c_pred c))) /\
  0 < default (collected (now_ms c) s (c_pred c) (.∈ l)) amt <= collected (now_ms c) s (c_pred c) (.∈ l).
Proof.
  intros Hnd H. apply withdraw_inv in H as (v & v1 & total & Hv & _ & Hd & Hm & -> & Hp & Hle & _).
  split; [exact Hd|]. vo Hv. subst v.
  assert (Hc : clear_fully_unlocked_positions (now_ms c) (get_voter s (c_pred c)) l = Ok v1).
  { destruct l; [subst v1; reflexivity|exact Hm]. }
  apply collected_v1 in Hc as [<- Hk]; [|exact Hnd]. auto.
Qed.

Lemma ok_allowed o s' e : named_once o -> tgt o -> exec c s o = Ok (s', e) -> allowed c s o.
Proof.
  intros Hno Ht H. destruct o; cbn [exec] in H; cbn [allowed]; cbv zeta; cbn [named_once tgt] in Hno, Ht;
    cbn [get_contract_info ci_owner ci_operator ci_mpdao ci_stnear ci_prev_gov ci_reg_cost ci_min_deposit ci_max_lps ci_max_vps
         ci_min_unbond ci_max_unbond]; try (apply noeff_Ok in H as [H ->]).
  - unfold set_stnear_contract in H. apply bind_Ok in H as (? & H1 & H). apply bind_Ok in H as (? & H2 & _).
    split; [eapply y_inv|eapply own_inv]; eassumption.
  - unfold set_operator_id in H. apply bind_Ok in H as (? & H1 & H). apply bind_Ok in H as (? & H2 & _).
    split; [eapply y_inv|eapply own_inv]; eassumption.
  - unfold set_owner_id in H. apply bind_Ok in H as (? & H1 & H). apply bind_Ok in H as (? & H2 & _).
    split; [eapply y_inv|eapply own_inv]; eassumption.
  - unfold update_registration_cost in H. apply bind_Ok in H as (? & H1 & H). apply bind_Ok in H as (? & H2 & _).
    split; [eapply np_inv|eapply own_inv]; eassumption.
  - unfold update_airdrop_user_data in H. apply bind_Ok in H as (? & H1 & _). apply require_Ok in H1. nb. exact H1.
  - unfold operator_multi_set_airdrop_data in H. apply bind_Ok in H as (? & H1 & H). apply bind_Ok in H as (? & H2 & _).
    split; [eapply np_inv|eapply opr_inv]; eassumption.
  - (* claim and lock *)
    split. { unfold claim_and_lock in H. apply bind_Ok in H as (? & H & _). eapply np_inv; exact H. }
    apply claim_and_lock_inv in H as (s1 & v & vp & l' & Hr & Hm & Hv & Hc & Hb & Hd & _).
    apply remove_claimable_mpdao_inv in Hr as (Hr & _ & ->). cbn in Hv, Hb, Hd. vo Hv. subst v.
    split; [exact Hm|]. split; [exact Hr|]. split; [eapply om_get_Some_key; exact Hv|]. eapply can_lock_intro; eauto.
  - unfold claim_stnear in H. apply bind_Ok in H as (? & H0 & H). cbn zeta in H. apply bind_Ok in H as (s1 & Hr & _).
    apply remove_claimable_stnear_inv in Hr as (Hr & _). split; [eapply np_inv; exact H0|exact Hr].
  - apply bind_Ok in H as (? & H0 & H). split; [eapply np_inv; exact H0|]. apply unlock_inv in H as (v & p & Hv & Hp & Hle & _).
    vo Hv. subst v. exists (lp_to_json (now_ms c) i p). split; [apply get_pos; eauto|exact Hle].
  - apply bind_Ok in H as (? & H0 & H). split; [eapply np_inv; exact H0|].
    apply unlock_partial_inv in H as [(H & v & p & Hv & Hp & Ha)|(v & p & vp & Hv & Hp & H1 & H2 & H3 & H4 & Hc & H5 & H6 & H7 & _)];
      vo Hv; subst v; exists (lp_to_json (now_ms c) i p); (split; [apply get_pos; eauto|]).
    + left. split; [exact Ha|]. apply unlock_inv in H as (v & q & Hv' & Hq & Hle & _). rewrite Hv in Hv'. injection Hv' as <-.
      rewrite Hp in Hq. injection Hq as <-. exact Hle.
    + right. apply calc_power in Hc. subst vp. split; [exact H1|]. split; [exact H2|]. split; [exact H3|]. split; [exact H4|].
      split; [exact H5|]. split; [exact H6|]. rewrite count_spec. rewrite N.mod_small in H7; [exact H7|].
      pose proof (g_len _ _ G (c_pred c)). pose proof (g_max _ _ G). lia.
  - apply extend_inv in H as (v & p & nvp & Hv & Hp & H0 & Hu & Hd & Hc & Hle & _). vo Hv. subst v.
    split; [exact H0|]. exists (lp_to_json (now_ms c) i p). split; [apply get_pos; eauto|]. pose proof Hc as Hc2. apply calc_power in Hc.
    apply calc_Ok in Hc2 as (_ & _ & H36 & _). subst nvp. cbn. unfold is_locked. rewrite Hu. auto.
  - split. { unfold relock_position in H. apply bind_Ok in H as (? & H & _). eapply np_inv; exact H. }
    apply relock_inv in H as (v & p & t & vp & l' & Hv & Hp & Hb & Hu & Ht2 & _ & Hc & Hbd & Hd & _). vo Hv. subst v.
    split; [exact Hb|]. exists (lp_to_json (now_ms c) i p), t. split; [apply get_pos; eauto|]. split; [exact Hu|]. split.
    + unfold long_enough, free_at, days_to_millis in *. cbn. intros Hlt. specialize (Ht2 Hlt). lia.
    + eapply can_lock_intro1; eauto. eapply lookup_lt_Some; exact Hp.
  - split. { unfold relock_partial_position in H. apply bind_Ok in H as (? & H & _). eapply np_inv; exact H. }
    apply relock_partial_inv in H as (v & p & t & vp & l1 & l' & b1 & Hv & Hp & Hb & Ha & _ & Hm & Hu & Hx & Hc & Hbd & Hd & _).
    vo Hv. subst v. split; [exact Hb|]. split; [exact Hm|]. exists (lp_to_json (now_ms c) i p), t.
    split; [apply get_pos; eauto|]. split; [exact Hu|]. split; [exact Ha|]. unfold long_enough, free_at, days_to_millis in *. cbn.
    destruct Hx as [(Hlt & Hd2 & Hlt2 & _ & nvp & _ & ->)|(Hge & _ & _ & ->)].
    + split; [lia|]. left. split; [exact Hlt|]. split; [exact Hlt2|].
      apply calc_Ok in Hc as (_ & _ & Hc & _). split; [exact Hbd|]. split; [exact Hc|].
      apply dep_room in Hd; [|exact (g_max _ _ G)|rewrite insert_length; apply (g_len _ _ G)].
      rewrite has_locked_spec, count_spec, N.add_0_r. rewrite insert_length in Hd.
      destruct Hd as [(q & Hq & Uq & Dq)|Hd]; [left|right; exact Hd]. exists q. split; [|auto].
      apply elem_of_list_In, elem_of_list_lookup in Hq as [n Hn]. destruct (decide (n = i)) as [->|Hne].
      * rewrite list_lookup_insert in Hn by (eapply lookup_lt_Some; exact Hp). injection Hn as <-. cbn in Uq. congruence.
      * rewrite list_lookup_insert_ne in Hn by congruence. apply elem_of_list_In, elem_of_list_lookup. eauto.
    + split; [lia|]. right. split; [exact Hge|]. eapply can_lock_intro1; eauto. eapply lookup_lt_Some; exact Hp.
  - split. { unfold relock_from_balance in H. apply bind_Ok in H as (? & H & _). eapply np_inv; exact H. }
    apply relock_from_balance_inv in H as (v & vp & l' & Hv & Ha & Hm & Hc & Hb & Hd & _). vo Hv. subst v.
    split; [eapply om_get_Some_key; exact Hv|]. split; [exact Ha|]. split; [exact Hm|]. eapply can_lock_intro; eauto.
  - split. { unfold clear_locking_position in H. apply bind_Ok in H as (? & H & _). eapply np_inv; exact H. }
    split. { unfold clear_locking_position in H. apply bind_Ok in H as (? & _ & H). apply bind_Ok in H as (? & H & _).
             apply require_Ok in H. destruct l; [discriminate|]. congruence. }
    apply clear_positions_inv in H as (v & v1 & Hv & _ & Hc & _). vo Hv. subst v. apply collected_v1 in Hc as [_ Hc]; [exact Hc|exact Hno].
  - unfold vote in H. apply bind_Ok in H as (? & H0 & H). split; [eapply np_inv; exact H0|]. destruct Ht as [Ht Hz].
    eapply vote_needs; eauto. lia.
  - eapply rebalance_needs; eauto.
  - unfold unvote in H. apply bind_Ok in H as (? & H0 & H). split; [eapply np_inv; exact H0|]. eapply unvote_needs; eauto.
  - unfold set_lock_in_vote_filters in H. apply bind_Ok in H as (? & H1 & H). apply bind_Ok in H as (? & H2 & _).
    split; [eapply np_inv|eapply opr_inv]; eassumption.
  - unfold update_min_unbond_period in H. apply bind_Ok in H as (? & H1 & H). apply bind_Ok in H as (? & H2 & _).
    split; [eapply y_inv|eapply own_inv]; eassumption.
  - unfold update_max_unbond_period in H. apply bind_Ok in H as (? & H1 & H). apply bind_Ok in H as (? & H2 & _).
    split; [eapply y_inv|eapply own_inv]; eassumption.
  - unfold set_prev_gov_contract in H. apply bind_Ok in H as (? & H1 & H). apply bind_Ok in H as (? & H2 & _).
    split; [eapply y_inv|eapply own_inv]; eassumption.
  - unfold migration_create_lps in H. apply bind_Ok in H as (? & H0 & H). apply bind_Ok in H as (? & H1 & H).
    apply require_Ok, bool_decide_eq_true in H1. apply bind_Ok in H as ([s1 v1] & H & _).
    split; [eapply np_inv; exact H0|]. split; [exact H1|].
    apply mig_needs in H as [HF (new & [Hn Hi] & Hl)]; [|exact (g_max _ _ G)|apply (g_len _ _ G)].
    split; [exact HF|]. exists new. split; [exact Hn|]. split; [|rewrite count_spec; exact Hl].
    intros k. rewrite Hi, has_locked_spec. reflexivity.
  - unfold operator_mirror_lps in H. apply bind_Ok in H as (? & H0 & H). apply bind_Ok in H as (? & H1 & H). cbn zeta in H.
    apply bind_Ok in H as (used & _ & H). apply bind_Ok in H as (prev & _ & H). apply bind_Ok in H as (vps & Hv & H).
    apply bind_Ok in H as (new & _ & H). apply bind_Ok in H as ([[s1 v1] used1] & Hl & H).
    apply bind_Ok in H as ([s2 v3] & Hf & _). apply mirror_loop_shape in Hl as (_ & vs & hv & hp & ->).
    split; [eapply np_inv; exact H0|]. split; [eapply opr_inv; exact H1|].
    pose proof (create_lps_room _ _ _ _ _ Hf) as Hroom. cbn in Hroom.
    split; [|split].
    + apply create_lps_nodup in Hf as [Hf _]; [exact Hf|intros p []].
    + specialize (Hroom ltac:(intros p []) (g_max _ _ G) ltac:(lia)). exact Hroom.
    + clear -Hv. revert vps Hv. induction l as [|lp l IH]; intros vps Hv; [constructor|]. cbn [mapMr] in Hv.
      apply bind_Ok in Hv as (x & Hx & Hv). apply bind_Ok in Hv as (y & Hy & _). apply calc_Ok in Hx as (_ & _ & Hx & _).
      apply List.Forall_cons; [exact Hx|]. eapply IH; exact Hy.
  - unfold pre_delegate_evm_address in H. apply bind_Ok in H as (? & H0 & H). apply bind_Ok in H as (? & H1 & _).
    apply require_Ok in H1. split; [eapply y_inv; exact H0|]. intros Ho. apply str_contains_occurs in Ho. rewrite Ho in H1. discriminate.
  - unfold operator_remove_pre_delegate in H. apply bind_Ok in H as (? & H1 & H). apply bind_Ok in H as (? & H2 & _).
    split; [eapply y_inv|eapply opr_inv]; eassumption.
  - unfold operator_confirm_delegated in H. apply bind_Ok in H as (? & H1 & H). apply bind_Ok in H as (? & H2 & _).
    split; [eapply y_inv|eapply opr_inv]; eassumption.
  - unfold delegated_claim_stnear in H. apply bind_Ok in H as (p & H1 & H). apply bind_Ok in H as (s1 & H2 & _).
    apply (verify_inv _ _ _ _ (g_d _ _ G)) in H1 as [H1 ->]. apply remove_claimable_stnear_inv in H2 as (H2 & _). auto.
  - unfold vote_delegated in H. apply bind_Ok in H as (? & H0 & H). apply bind_Ok in H as (p & H1 & H).
    apply (verify_inv _ _ _ _ (g_d _ _ G)) in H1 as [H1 ->]. destruct Ht as [Ht Hz].
    split; [eapply np_inv; exact H0|]. split; [exact H1|]. eapply vote_needs; eauto. lia.
  - unfold unvote_delegated in H. apply bind_Ok in H as (? & H0 & H). apply bind_Ok in H as (p & H1 & H).
    apply (verify_inv _ _ _ _ (g_d _ _ G)) in H1 as [H1 ->].
    split; [eapply np_inv; exact H0|]. split; [exact H1|]. eapply unvote_needs; eauto.
  - unfold remove_delegated_evm_address in H. apply bind_Ok in H as (? & H0 & H). split; [eapply y_inv; exact H0|].
    unfold get_delegate. destruct (evm_sigs s !! evm) as [[a g]|]; [|discriminate].
    case_bool_decide as Ha; [|discriminate]. subst a. reflexivity.
  - unfold withdraw in H. apply withdraw_needs in H as (H0 & H1 & H2); [|exact Hno].
    split; [exact H0|]. split; [exact H1|]. destruct (N.eqb_spec amount 0) as [->|Hz]; cbn in H2; lia.
  - unfold withdraw_all in H. apply bind_Ok in H as (v & Hv & H). unfold get_voter_or_panic in Hv. apply expect_Ok in Hv.
    vo Hv. subst v. apply withdraw_needs in H as (H0 & _ & H2); [|apply unlocked_indexes_NoDup].
    split; [exact H0|]. rewrite collected_all. cbn in H2. lia.
  - unfold after_transfer_mpdao_callback in H. apply bind_Ok in H as (? & H1 & H). apply bind_Ok in H as (? & H2 & _).
    split; [eapply np_inv; exact H2|eapply prv_inv; exact H1].
  - unfold after_transfer_stnear_callback in H. apply bind_Ok in H as (? & H1 & H). apply bind_Ok in H as (? & H2 & H).
    split; [eapply np_inv; exact H2|]. split; [eapply prv_inv; exact H1|]. destruct ok; [left; reflexivity|right].
    apply add_claimable_stnear_inv in H as [H _]. exact H.
  - apply bind_Ok in H as ([s1 n] & H & _). unfold ft_on_transfer in H. apply bind_Ok in H as (? & H0 & H).
    split; [eapply np_inv; exact H0|]. apply bind_Ok in H as (fc & Hfc & H). pose proof (fc_needs _ _ Hfc) as Hsl.
    split; [exact Hsl|]. pose proof (fc_spec _ Hsl) as Hfc2. rewrite Hfc in Hfc2. apply Ok_inj in Hfc2. subst fc.
    destruct (after_prefix "for-claims:" msg) as [rest|] eqn:Ea.
    + apply for_claims_true in Hfc. rewrite Hfc in Ea. injection Ea as Ea; subst rest.
      apply bind_Ok in H as (l & Hl & H). apply expect_Ok in Hl. apply bind_Ok in H as (? & Hb & H). apply require_Ok in Hb.
      apply bind_Ok in H as (s2 & Hd & _). apply distribute_inv in Hd as [HF Hd]. exists l. split; [exact Hl|]. split.
      * apply Forall_forall. intros p Hp. rewrite Forall_forall in HF. split; [apply HF; exact Hp|].
        rewrite forallb_forall in Hb. apply elem_of_list_In, Hb in Hp. nb. exact Hp.
      * destruct Hd as [(Hp & Ha & _)|(Hnp & Hp & Ha & _)]; [left|right]; auto.
    + apply bind_Ok in H as (? & Hp & H). apply require_Ok, bool_decide_eq_true in Hp. split; [exact Hp|].
      apply bind_Ok in H as (ip & Hip & H). pose proof (pair_needs _ _ Hip) as Hs1. rewrite pair_spec in Hip by exact Hs1. apply Ok_inj in Hip. subst ip.
      apply bind_Ok in H as ([vid days] & Hvd & H). apply bind_Ok in H as (? & Hm & H). apply require_Ok in Hm. nb.
      split; [exact Hm|]. split; [exact Hs1|]. apply bind_Ok in H as ([s2 v2] & Hd & _).
      apply deposit_inv in Hd as (vp & l' & Hc & Hb & Hd & _). exists vid, days. split; [eapply can_lock_intro; eauto|].
      destruct (after_prefix "[" msg).
      * apply bind_Ok in Hvd as (pr & Hpr & Hvd). apply expect_Ok in Hpr. apply bind_Ok in Hvd as (? & H1 & Hvd).
        apply bind_Ok in Hvd as (? & H2 & [= ->]). apply require_Ok in H1. apply require_Ok, bool_decide_eq_true in H2.
        cbn in H1. nb. split; [exact Hpr|]. split; [exact H1|exact H2].
      * apply bind_Ok in Hvd as (d & Hpd & [= <- <-]). apply expect_Ok in Hpd. auto.
Qed.

End Exact.

Lemma c71 a s0 tr c o :
  mv_new a = Ok s0 -> collision_free (tr ++ [(c, o)]) -> no_zero_votes (tr ++ [(c, o)]) -> named_once o ->
  (forall s' e, exec c (run s0 tr) o = Ok (s', e) -> allowed c (run s0 tr) o) /\
  (allowed c (run s0 tr) o ->
   (exists s' e, exec c (run s0 tr) o = Ok (s', e)) \/ exists m, exec c (run s0 tr) o = Panic m /\ too_big m).
Proof.
  intros H0 Hc Hz Hno. pose proof (good_run a s0 tr [(c, o)] H0 Hc Hz) as G.
  assert (Ht : tgt (targetsP (tr ++ [(c, o)])) c o).
  { destruct o; try exact I; (split; [|exact (last_nonzero tr _ Hz)]).
    - exact (last_target tr (c, Vote vp addr obj) (c_pred c, addr) eq_refl).
    - exact (last_target tr (c, VoteDelegated evm vp addr obj) (evm_account evm, addr) eq_refl). }
  split.
  - intros s' e. apply (ok_allowed _ _ G); assumption.
  - intros Ha. apply (allowed_oo _ _ G) in Ha; [|assumption..].
    destruct (exec c (run s0 tr) o) as [[s' e]|m]; [left; eauto|right; eauto].
Qed.
