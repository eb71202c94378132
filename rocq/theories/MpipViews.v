(** MpipViews.v -- C75: the views of the proposal contract, from its board. *)

From Verif Require Export MpipSpecViews.
From Verif Require Import MpipStep MpipView.

Lemma mapMr_lookup {A C} (f : A -> res C) l : forall l' i x, mapMr f l = Ok l' -> l !! i = Some x ->
  exists y, f x = Ok y /\ l' !! i = Some y.
Proof.
  induction l as [|z l IH]; intros l' i x H Hi; [discriminate|]. cbn in H. apply bind_Ok in H as (y & Hy & H).
  apply bind_Ok in H as (r & Hr & H). injection H as <-. destruct i as [|i].
  - injection Hi as ->. exists y. auto.
  - destruct (IH r i x Hr Hi) as (u & Hu & E). exists u. auto.
Qed.
Lemma mapMr_len {A C} (f : A -> res C) l : forall l', mapMr f l = Ok l' -> length l' = length l.
Proof.
  induction l as [|z l IH]; intros l' H; cbn in H; [injection H as <-; reflexivity|]. apply bind_Ok in H as (y & Hy & H).
  apply bind_Ok in H as (r & Hr & H). injection H as <-. cbn. f_equal. apply IH. exact Hr.
Qed.

Section Views.
Context (w : world) (tr : list mevent) (now : N).
Hypothesis Hr : mreach w tr.
Let s := w_m w.
Let B := observe w.
Let HV : VI s := VI_reach _ _ Hr.
Let HS : SQ w := SQ_reach _ _ Hr.

Lemma on_voting_total id p : om_get (m_proposals s) id = Some p -> exists b : bool, is_on_voting now p = Ok b /\ (b = true <-> voting now p).
Proof.
  intros Hp. assert (E : exists b, is_on_voting now p = Ok b).
  { unfold is_on_voting. destruct (pr_start p) as [d|] eqn:Ed; [|eauto]. destruct (d <=? now); [|eauto].
    destruct (HS id p Hp) as [[e He] _]; [eauto|]. rewrite He. cbn. eauto. }
  destruct E as [b E]. exists b. split; [exact E|]. rewrite <- voting_iff, E. split; congruence.
Qed.

Lemma nt_active p : pr_draft p = false -> pr_canceled p = false -> pr_executed p = false ->
  is_active now p = true <-> waiting now p.
Proof.
  intros E1 E2 E3. unfold is_active, waiting. rewrite E1, E2, E3. destruct (pr_start p) as [d|].
  - rewrite !andb_true_r, N.leb_le. split; [intros H t [= <-]; exact H|intros H; apply H; reflexivity].
  - split; [discriminate|reflexivity].
Qed.

Lemma state_case id st : get_proposal_state now s id = Ok st <-> exists p, b_prop B id = Some p /\ state_at now B id p st.
Proof.
  unfold B. rewrite obs_prop. fold s. fold B. unfold get_proposal_state, get_mpip.
  destruct (om_get (m_proposals s) id) as [p|] eqn:Hp; cbn [expect mbind res_bind].
  2: { split; [discriminate|]. intros (p & E & _). discriminate E. }
  assert (K : (exists p', Some p = Some p' /\ state_at now B id p' st) <-> state_at now B id p st).
  { split; [intros (p' & [= <-] & H); exact H|eauto]. }
  rewrite K. clear K.
  destruct (on_voting_total id p Hp) as (b & Eb & Hb). rewrite Eb. cbn [mbind res_bind].
  unfold state_at. set (tn := turnout B id).
  assert (Hvf : voting now p -> pr_draft p = false /\ pr_canceled p = false /\ pr_executed p = false).
  { intros (t & e & H). intuition. }
  destruct (pr_executed p) eqn:Ex.
  { destruct st; split; try congruence; try (intros [[=]]); try (intros [[[=]]]); try (intros [[[[=]]]]); intuition congruence. }
  destruct (pr_canceled p) eqn:Ec.
  { destruct st; split; try congruence; intuition congruence. }
  destruct (pr_draft p) eqn:Ed.
  { destruct st; split; try congruence; intuition congruence. }
  destruct b.
  { destruct Hb as [Hb _]. specialize (Hb eq_refl). destruct st; split; try congruence; intuition congruence. }
  assert (Hn : ~ voting now p) by (intros H; apply Hb in H; discriminate).
  pose proof (nt_active p Ed Ec Ex) as Ha. destruct (is_active now p).
  { destruct Ha as [Ha _]. specialize (Ha eq_refl). destruct st; split; try congruence; intuition congruence. }
  assert (Hw : ~ waiting now p) by (intros H; apply Ha in H; discriminate).
  assert (Hq : exists q, pr_quorum p = Some q).
  { destruct (pr_start p) as [d|] eqn:Es; [|exfalso; apply Hw; unfold waiting; rewrite Es; discriminate].
    destruct (HS id p Hp) as [_ [q Hq]]; [rewrite Es; eauto|]. eauto. }
  destruct Hq as [q Hq]. rewrite (quorum_spec s id p q Hp Hq).
  change (tally_of (get_pvote s id) VFor + tally_of (get_pvote s id) VAbstain) with tn.
  assert (E128 : U128_SIZE = 2 ^ 128) by reflexivity. rewrite E128. clear E128.
  unfold get_proposal_vote_succeeded. change (pv_against (get_pvote s id)) with (b_tally B id VAgainst).
  change (pv_for (get_pvote s id)) with (b_tally B id VFor).
  assert (Hwon : (exists q0, pr_quorum p = Some q0 /\ q0 <= tn) <-> q <= tn).
  { rewrite Hq. split; [intros (q0 & [= <-] & H); exact H|eauto]. }
  destruct (N.ltb_spec tn (2 ^ 128)) as [Ht|Ht]; cbn [mbind res_bind].
  - destruct (N.leb_spec q tn) as [H1|H1], (N.ltb_spec (b_tally B id VAgainst) (b_tally B id VFor)) as [H2|H2]; cbn [andb];
      try pose proof (proj1 (N.lt_nge _ _) H1); try pose proof (proj1 (N.le_ngt (b_tally B id VFor) (b_tally B id VAgainst)) H2);
      destruct st; split; try congruence; intuition congruence.
  - assert (Ht' : ~ tn < 2 ^ 128) by (apply N.le_ngt; exact Ht). clear Ht. destruct st; split; try congruence; intuition congruence.
Qed.

Lemma c75_proposals : few_proposals s -> proposal_views now s B.
Proof.
  intros Hf. unfold B. split.
  { intros id p. rewrite obs_prop. apply get_mpip_Ok. }
  split; [apply state_case|].
  split.
  { intros id b. rewrite obs_prop. fold s. unfold get_proposal_is_active_or_draft, get_mpip.
    destruct (om_get (m_proposals s) id) as [p|]; cbn [expect mbind res_bind].
    - pose proof (editable_iff now p) as E. split.
      + intros H. apply Ok_inj in H. exists p. split; [reflexivity|]. rewrite <- H. exact E.
      + intros (p' & [= <-] & H). f_equal. destruct b, (is_active_or_draft now p); intuition congruence.
    - split; [discriminate|]. intros (p & E & _). discriminate E. }
  split; [reflexivity|]. split; [reflexivity|].
  split.
  { rewrite obs_count by exact Hf. destruct (c41_state w tr Hr Hf) as (_ & _ & Hl & _). fold s in Hl. rewrite Hl. fold s.
    case_decide as Hd; destruct (N.eqb_spec (N.of_nat (n_proposals s)) 0); try lia; reflexivity. }
  intros from limit. rewrite obs_count by exact Hf. fold s.
  destruct (c63_page w tr from limit Hr Hf) as (l & Hl & Hg). fold s in Hl, Hg. rewrite Hg.
  destruct (N.ltb_spec (N.of_nat from) (N.of_nat (n_proposals s))); [rewrite decide_True by lia|rewrite decide_False by lia; reflexivity].
  exists l. split; [reflexivity|]. rewrite Nat2N.id.
  assert (Hlen : length l = Nat.min limit (n_proposals s - from)).
  { unfold proposals_of in Hl. apply mapMr_len in Hl. rewrite seq_length in Hl. exact Hl. }
  split; [exact Hlen|]. intros i Hi. rewrite obs_prop. fold s. rewrite Hlen in Hi.
  unfold proposals_of in Hl. assert (Hx : seq from (Nat.min limit (n_proposals s - from)) !! i = Some (from + i)%nat) by (apply lookup_seq_lt; lia).
  destruct (mapMr_lookup _ _ _ _ _ Hl Hx) as (p & Hp & Hlk). apply get_mpip_Ok in Hp. rewrite Hp. exact Hlk.
Qed.

Lemma c75_votes : vote_views s B.
Proof.
  destruct (c40 w tr Hr) as (H1 & H2 & H3 & H4 & H5). fold s in H1, H2, H3, H4, H5.
  assert (Hbal : forall id v u, b_ballot B id v = Some u <-> get_my_vote s v id = Ok (Some (v, u))).
  { intros id v u. unfold B. rewrite (obs_ballot w id v HV). rewrite (my_vote_eq s v id HV). fold s.
    destruct (om_get (pv_voted (get_pvote s id)) v) as [u'|]; cbn; split; congruence. }
  assert (Hhas : forall v id, has_voted s v id = true <-> b_ballot B id v <> None).
  { intros v id. unfold B. pose proof (voted_iff w id v HV) as E. change (internal_has_voted (w_m w) id v) with (has_voted s v id) in E. rewrite E. clear E. split; [intros [u E]; congruence|].
    destruct (b_ballot (observe w) id v); [eauto|congruence]. }
  split.
  { intros id. exists (listed s id). split; [reflexivity|]. split; [apply H1|]. intros v u. rewrite Hbal, H2. cbn. intuition. }
  split. { intros id. unfold get_proposal_vote_succeeded. apply N.ltb_lt. }
  split.
  { intros c id b. unfold get_quorum_reached. split.
    - intros H. apply bind_Ok in H as (u & Hu & H). apply unit_Ok, staff_iff in Hu. split; [exact Hu|].
      unfold is_quorum_reached in H. apply bind_Ok in H as (p & Hp & H). apply get_mpip_Ok in Hp.
      apply bind_Ok in H as (q & Hq & H). apply expect_Ok in Hq. apply bind_Ok in H as (t & Ht & H).
      apply add128_Ok in Ht as [-> Ht]. apply Ok_inj in H. exists p, q. unfold B. rewrite obs_prop. split; [exact Hp|].
      split; [exact Hq|]. split; [exact Ht|]. rewrite <- H. apply N.leb_le.
    - intros (Hc & p & q & Hp & Hq & Ht & Hb). apply (staff_iff c s) in Hc. rewrite Hc. cbn [mbind res_bind].
      unfold B in Hp. rewrite obs_prop in Hp. rewrite (quorum_spec s id p q Hp Hq).
      change (tally_of (get_pvote s id) VFor + tally_of (get_pvote s id) VAbstain) with (turnout B id).
      apply N.ltb_lt in Ht. change (2 ^ 128) with U128_SIZE in Ht. rewrite Ht. f_equal.
      destruct (N.leb_spec q (turnout B id)), b; intuition (try congruence; try lia). }
  split; [exact Hhas|].
  split.
  { intros v id. rewrite (my_vote_eq s v id HV). unfold B. rewrite (obs_ballot w id v HV). fold s. destruct (om_get _ v); reflexivity. }
  split.
  { intros v. split.
    - unfold get_voter_votes. rewrite map_map. cbn [snd].
      assert (E : map (fun e : N * mvote => vt_mpip e.2) (get_mvoter s v) = (get_mvoter s v).*1).
      { apply List.map_ext_in. intros [id u] Hin. cbn. apply (vi_rec _ HV id v u). apply om_In_get; [apply (vi_nd_mv _ HV)|exact Hin]. }
      rewrite E. apply (vi_nd_mv _ HV).
    - intros [v' u]. rewrite H4. cbn [fst snd]. split.
      + intros E. pose proof E as E'. apply H2 in E' as [_ E']. cbn in E'. subst v'. split; [reflexivity|]. apply Hbal. exact E.
      + intros [-> E]. apply Hbal. exact E. }
  split.
  { destruct H5 as (l & Hn & Hl & Ht). exists l. split; [exact Hn|]. split; [|exact Ht]. intros v. rewrite Hl.
    split; intros [id E]; exists id; apply Hhas; exact E. }
  split; [reflexivity|]. split; [reflexivity|]. split; [reflexivity|]. intros n. apply N.leb_le.
Qed.
End Views.

Lemma c75 w tr now : mreach w tr -> vote_views (w_m w) (observe w) /\
  (few_proposals (w_m w) -> proposal_views now (w_m w) (observe w)).
Proof. intros H. split; [eapply c75_votes; exact H|eapply c75_proposals; exact H]. Qed.
