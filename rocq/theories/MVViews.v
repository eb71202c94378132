(** MVViews.v -- C74: the views of the voting contract, from its ledger. *)

From Verif Require Export MVSpecViews.
From Verif Require Import MVStep8 MVVoteViews MVMisc MVClaims MVClear MVDeleg.

Lemma filter_sum (f : lpos -> bool) (g : pos -> bool) l :
  (forall p, f p = g (lpp p)) -> sumN (map lp_amount (List.filter f l)) = sum_by p_amount (List.filter g (map lpp l)).
Proof.
  intros Hf. induction l as [|p l IH]; [reflexivity|]. cbn [List.filter map]. rewrite <- Hf. destruct (f p); [|exact IH].
  rewrite sum_by_cons, <- IH. reflexivity.
Qed.
Lemma is128_sum (f : lpos -> bool) (g : pos -> bool) l :
  (forall p, f p = g (lpp p)) ->
  is128 (sum128 (map lp_amount (List.filter f l))) (sum_by p_amount (List.filter g (map lpp l))).
Proof.
  intros Hf. rewrite <- (filter_sum f g l Hf). split.
  - intros H. apply sum128_Ok. split; [reflexivity|exact H].
  - intros H. destruct (sum128 (map lp_amount (List.filter f l))) as [r|m] eqn:G; [|eauto].
    apply sum128_Ok in G as [_ G]. change U128_SIZE with (2 ^ 128) in G. lia.
Qed.

Lemma show_imap now l : imap (fun i p => lp_to_json now i p) l = imap (show_pos now) (map lpp l).
Proof.
  change (map lpp l) with (lpp <$> l). rewrite imap_fmap. apply imap_ext. intros i p _. unfold compose, lp_to_json, show_pos.
  rewrite is_unlocked_ended. reflexivity.
Qed.

Lemma c74_account a s0 tr now w :
  mv_new a = Ok s0 -> collision_free tr -> no_zero_votes tr ->
  let s := run s0 tr in account_views now s w (l_acct (observe s) w).
Proof.
  intros H0 Hc Hz s. unfold account_views, amounts. cbn [observe l_acct]. unfold acct_of.
  cbn [a_pos a_bal a_free a_used a_votes]. rewrite !(pos_of_lp 0 s w).
  destruct (c67_voter a s0 tr w H0 Hc) as (l & Hl & Hs & Hnd & Hu & Hj & Hin). fold s in Hl, Hu, Hj, Hin.
  specialize (Hin Hz).
  assert (Hv : forall x y, get_votes_for_object s w x y = Ok (votes_or0 s w x y)).
  { intros x y. pose proof (sinv_run a s0 tr H0 Hc Hz) as HS. fold s in HS. destruct (si_ex _ _ HS w) as [L' HX].
    unfold votes_or0. rewrite (get_votes_exact _ _ _ _ _ _ HX). reflexivity. }
  assert (Hb : ballot (votes_or0 s w) l).
  { split; [exact Hnd|]. intros x y n. rewrite Hin, Hv. split; [intros [E ?]; injection E as ->; auto|intros [-> ?]; auto]. }
  assert (Hu' : used_or0 s w = sum_by snd l) by (unfold used_or0; rewrite Hu; reflexivity).
  split; [apply show_imap|].
  split. { intros k. rewrite <- show_imap. unfold get_locking_position. rewrite list_lookup_imap. reflexivity. }
  split.
  { unfold get_balance, sum_unlocked, raw_balance.
    rewrite <- (filter_sum (is_unlocked now) (ended now)) by (intros; apply is_unlocked_ended).
    set (l0 := map lp_amount _). split.
    - intros H. assert (E : sum128 l0 = Ok (sumN l0)) by (apply sum128_Ok; split; [reflexivity|change U128_SIZE with (2 ^ 128); lia]).
      rewrite E. cbn [mbind res_bind]. apply add128_Ok. split; [reflexivity|]. change U128_SIZE with (2 ^ 128). lia.
    - intros H. match goal with |- exists m, ?r = _ => destruct r as [r0|m] eqn:G; [|eauto] end. exfalso.
      apply bind_Ok in G as (u & Gu & G). apply sum128_Ok in Gu as [-> _]. apply add128_Ok in G as [_ G].
      change U128_SIZE with (2 ^ 128) in G. lia. }
  split; [apply is128_sum; reflexivity|]. split; [apply is128_sum; reflexivity|].
  split; [reflexivity|]. split; [rewrite Hu, Hu'; reflexivity|]. split; [exact Hv|].
  split; [exists l; auto|].
  destruct (Hj now) as (j & E & Hp). exists (vj_votes j). split.
  - rewrite E. f_equal. unfold get_voter_info in E. unfold raw_balance, get_available_voting_power, get_voter in *.
    destruct (om_get (voters s) w) as [v|]; cbn [from_option default id] in *.
    + unfold voter_to_json in E. apply bind_Ok in E as (vts & _ & E). injection E as <-. cbn. rewrite show_imap. reflexivity.
    + injection E as <-. reflexivity.
  - destruct Hb as [Hb1 Hb2]. split; [rewrite <- Hp; exact Hnd|]. intros x y n. rewrite <- Hb2.
    split; apply Permutation_in; [symmetry|]; exact Hp.
Qed.

Lemma c74_lists a s0 tr now :
  mv_new a = Ok s0 -> collision_free tr -> let s := run s0 tr in list_views now s (observe s).
Proof.
  intros H0 Hc s. pose proof (inv_run a s0 tr H0 Hc) as HI. fold s in HI. pose proof (i_nd _ _ _ HI) as Hnd.
  split; [|split; [|split; [|split]]].
  - exists (vj now s <$> voters s).
    assert (Hid : map vj_id (vj now s <$> voters s) = voter_ids s).
    { unfold voter_ids. change (map vj_id (vj now s <$> voters s)) with (vj_id <$> (vj now s <$> voters s)).
      rewrite <- list_fmap_compose. apply list_fmap_ext. intros i [k0 v] Hi. unfold compose, vj. cbn [fst snd].
      destruct (json_ok _ s now k0 v HI (om_get_lookup _ _ _ _ Hnd Hi)) as (j & Hj & E). rewrite Hj. exact E. }
    split; [intros from limit; eapply voters_page; exact HI|].
    split; [rewrite Hid; exact Hnd|]. split; [rewrite fmap_length; reflexivity|]. split; [rewrite fmap_length; reflexivity|].
    split.
    { intros w. rewrite Hid. cbn [observe l_acct acct_of a_voter]. rewrite bool_decide_eq_true, elem_of_list_In. reflexivity. }
    intros j Hj. apply elem_of_list_In, elem_of_list_fmap in Hj as ([k v] & -> & Hin). apply elem_of_list_In in Hin.
    pose proof (om_In_get _ _ _ Hnd Hin) as Hg. destruct (json_ok _ s now k v HI Hg) as (j & Hj & E).
    unfold vj. cbn [fst snd]. rewrite Hj. unfold get_voter_info. rewrite E, Hg. exact Hj.
  - assert (HC : CIs s) by (apply CIs_run; eapply CIs_init; exact H0). destruct HC as [Hm _].
    exists (claim_mp s). split; [intros from limit; apply map_page_spec; apply Hm|]. split; [apply Hm|].
    intros w n. rewrite (CI_list _ _ _ _ Hm). cbn [observe l_mp]. unfold get_claimable_mpdao, clm. intuition congruence.
  - assert (HC : CIs s) by (apply CIs_run; eapply CIs_init; exact H0). destruct HC as [_ Hm].
    exists (claim_st s). split; [intros from limit; apply map_page_spec; apply Hm|]. split; [apply Hm|].
    intros w n. rewrite (CI_list _ _ _ _ Hm). cbn [observe l_st]. unfold get_claimable_stnear, clm. intuition congruence.
  - pose proof (data_nd a s0 tr H0) as Hd. fold s in Hd. exists (user_data s).
    split; [intros from limit; apply map_page_spec; exact Hd|]. split; [exact Hd|]. intros w d. cbn [observe l_data].
    unfold get_airdrop_account. split.
    + intros Hin. rewrite (om_In_get _ _ _ Hd Hin). reflexivity.
    + intros H. apply om_get_Some_In. destruct (om_get (user_data s) w); cbn in H; [exact H|discriminate].
  - assert (HD : DIs s) by (apply DIs_run; eapply DIs_init; exact H0). pose proof (di_nd _ _ HD) as Hd.
    exists (evm_delegates s). split; [exact Hd|]. cbn [observe l_evms]. unfold get_delegating_evm_addresses.
    split; [intros w es Hin; rewrite (om_In_get _ _ _ Hd Hin); reflexivity|].
    split. { intros w Hne. destruct (om_get (evm_delegates s) w) eqn:E; cbn in Hne; [|congruence].
             apply elem_of_list_In. eapply om_get_Some_key. exact E. }
    split; [reflexivity|]. intros from limit. unfold get_delegates. assert (E32 : U32_SIZE = 2 ^ 32) by reflexivity. rewrite E32. clear E32.
    case_decide as Hcs.
    + destruct Hcs as [H1 H2]. destruct (Nat.ltb_spec from (length (evm_delegates s))); [|lia]. cbn [require mbind res_bind].
      destruct (N.ltb_spec (N.of_nat from + N.of_nat limit) (2 ^ 32)); [|lia].
      cbn [require mbind res_bind]. apply map_page_spec. exact Hd.
    + destruct (Nat.ltb_spec from (length (evm_delegates s))); cbn [require mbind res_bind]; [|eauto].
      destruct (N.ltb_spec (N.of_nat from + N.of_nat limit) (2 ^ 32)); cbn [require mbind res_bind]; [|eauto].
      exfalso. apply Hcs. auto.
Qed.

Lemma c74_others a s0 tr :
  mv_new a = Ok s0 -> no_zero_votes tr -> let s := run s0 tr in other_views s (observe s).
Proof.
  intros H0 Hz s.
  assert (HA : forall x, entries (get_total_votes s x) (get_votes_by_app s x)).
  { intros x. destruct (c67_app a s0 tr x H0) as (Hn & H1 & H2 & H3 & _). fold s in Hn, H1, H2, H3. split; [exact Hn|].
    intros y n. split.
    - intros Hin. split; [symmetry; apply H1; exact Hin|exact (H3 Hz _ _ Hin)].
    - intros [-> Hp]. apply H2. exact Hp. }
  split; [exact HA|]. split.
  { intros x. destruct (c67_app a s0 tr x H0) as (Hn & _ & _ & _ & Hp & Hs). fold s in Hn, Hp, Hs. specialize (HA x) as [_ HA].
    split.
    { rewrite Hp, map_map. cbn [fst snd]. clear - Hn. revert Hn. generalize (get_votes_by_app s x). intros l Hn.
      induction l as [|[y n] l IH]; [constructor|]. cbn in *. apply NoDup_cons in Hn as [H1 H2]. constructor; [|auto].
      rewrite elem_of_list_In, in_map_iff. intros ([y' n'] & E & Hin). cbn in E. injection E as ->. apply H1.
      apply elem_of_list_fmap. exists (y, n'). split; [reflexivity|]. apply elem_of_list_In. exact Hin. }
    split; [exact Hs|]. intros x' y n. split.
    - intros Hin. apply (Permutation_in _ Hp) in Hin. apply in_map_iff in Hin as ([y' n'] & E & Hin). cbn in E.
      injection E as <- <- <-. split; [reflexivity|]. apply HA. exact Hin.
    - intros (-> & H). apply (Permutation_in _ (Permutation_sym Hp)). apply in_map_iff. exists (y, n). split; [reflexivity|].
      apply HA. exact H. }
  cbn [observe l_data l_deleg]. unfold get_airdrop_account, check_if_registered, get_delegation_signature, get_delegate.
  split. { intros w. destruct (om_get (user_data s) w); cbn; split; congruence. }
  split. { intros w d. destruct (om_get (user_data s) w); cbn; split; congruence. }
  split. { intros e to sg. destruct (evm_sigs s !! e) as [[? ?]|]; cbn; split; congruence. }
  split. { intros e to. destruct (evm_sigs s !! e) as [[? ?]|]; cbn; split; [intros E; injection E as ->; eauto|intros (sg & E); congruence|discriminate|intros (sg & E); discriminate]. }
  split; [reflexivity|]. split; [reflexivity|]. split; [reflexivity|]. split; [reflexivity|]. split; reflexivity.
Qed.
