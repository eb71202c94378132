(** MpipStep.v -- C73: the proposal contract follows its specification. *)

From Verif Require Export MpipSpecStep MpipInv MpipLife MpipTime.

Lemma same_refl B : same B B.
Proof. unfold same. auto 10. Qed.
Lemma same_sym B C : same B C -> same C B.
Proof. intros (H1 & H2 & H3 & H4 & H5). unfold same. repeat split; intros; symmetry; auto. Qed.
Lemma same_trans B C D : same B C -> same C D -> same B D.
Proof.
  intros (H1 & H2 & H3 & H4 & H5) (K1 & K2 & K3 & K4 & K5). unfold same. repeat split; intros; etransitivity; eauto.
Qed.
Lemma put_eq {K} `{EqDecision K} {A} (k : K) (v : A) f : put k v f k = v.
Proof. unfold put. rewrite decide_True by reflexivity. reflexivity. Qed.
Lemma put_ne {K} `{EqDecision K} {A} (k x : K) (v : A) f : x <> k -> put k v f x = f x.
Proof. intros H. unfold put. rewrite decide_False by exact H. reflexivity. Qed.

Lemma Ok_inj {A} (x y : A) : Ok x = Ok y -> x = y.
Proof. congruence. Qed.

(** ** What is shown, from the state *)
Lemma obs_prop w id : b_prop (observe w) id = om_get (m_proposals (w_m w)) id.
Proof. cbn [observe b_prop]. unfold get_proposal, get_mpip. destruct (om_get (m_proposals (w_m w)) id); reflexivity. Qed.
Lemma last_id s : few_proposals s -> match get_last_proposal_id s with Ok (Some n) => n + 1 | _ => 0 end = N.of_nat (n_proposals s).
Proof.
  unfold few_proposals, n_proposals. intros H. unfold get_last_proposal_id. destruct (length (m_proposals s)) as [|n]; [reflexivity|].
  rewrite N.mod_small by exact H. unfold sub128. destruct (N.leb_spec 1 (N.of_nat (S n))); [|lia]. cbn [mbind res_bind]. lia.
Qed.
Lemma obs_count w : few_proposals (w_m w) -> b_count (observe w) = N.of_nat (n_proposals (w_m w)).
Proof. apply last_id. Qed.
Lemma obs_ballot w id v : VI (w_m w) -> b_ballot (observe w) id v = om_get (pv_voted (get_pvote (w_m w) id)) v.
Proof. intros H. cbn [observe b_ballot]. rewrite my_vote_eq by exact H. destruct (om_get _ v); reflexivity. Qed.
Lemma obs_tally w id t : b_tally (observe w) id t = tally_of (get_pvote (w_m w) id) t.
Proof. apply tally_eq. Qed.
Lemma obs_made w a : b_made (observe w) a = get_proposer (w_m w) a.
Proof. reflexivity. Qed.

(** fields other than the collections *)
Definition plain (s : mstate) :=
  (m_self s, m_admin s, m_operator s, m_meta_token s, m_meta_vote s, m_period s, m_min_meta s, m_min_st s, m_min_vp s,
   m_cost_meta s, m_storage s, m_open s, m_floor s).
Definition plainb (B : board) :=
  (b_self B, b_admin B, b_operator B, b_token B, b_source B, b_period B, b_min_meta B, b_min_st B, b_threshold B, b_cost B,
   b_fee B, b_open B, b_floor B).
Lemma same_obs w B :
  few_proposals (w_m w) -> VI (w_m w) -> plain (w_m w) = plainb B -> N.of_nat (n_proposals (w_m w)) = b_count B ->
  w_pend w = b_wait B -> (forall id, om_get (m_proposals (w_m w)) id = b_prop B id) -> (forall a, get_proposer (w_m w) a = b_made B a) ->
  (forall id t, tally_of (get_pvote (w_m w) id) t = b_tally B id t) ->
  (forall id v, om_get (pv_voted (get_pvote (w_m w) id)) v = b_ballot B id v) -> same (observe w) B.
Proof.
  intros Hf HV E1 E2 E3 E4 E5 E6 E7. split; [|split; [|split; [|split]]].
  - unfold fixed. rewrite (obs_count w Hf), E2. unfold plain, plainb in E1. cbn [observe b_self b_admin b_operator b_token b_source b_period
      b_min_meta b_min_st b_threshold b_cost b_fee b_open b_floor b_wait]. rewrite E3. congruence.
  - intros id. rewrite obs_prop. apply E4.
  - exact E5.
  - intros id t. rewrite obs_tally. apply E6.
  - intros id v. rewrite obs_ballot by exact HV. apply E7.
Qed.

(** ** Conditions *)
Lemma editable_iff now p : is_active_or_draft now p = true <-> editable now p.
Proof.
  unfold is_active_or_draft, editable. destruct (pr_start p) as [t|].
  - rewrite !andb_true_iff, !negb_true_iff, N.leb_le. split.
    + intros [[H1 H2] H3]. split; [exact H2|]. split; [exact H3|]. intros x [= <-]. exact H1.
    + intros (H2 & H3 & H1). split; [split; [apply H1; reflexivity|exact H2]|exact H3].
  - rewrite andb_true_iff, !negb_true_iff. split.
    + intros [H2 H3]. split; [exact H2|]. split; [exact H3|]. discriminate.
    + intros (H2 & H3 & _). auto.
Qed.
Lemma voting_iff now p : is_on_voting now p = Ok true <-> voting now p.
Proof. apply in_window_iff. Qed.
Lemma admin_iff c s : assert_only_admin c s = Ok tt <-> c_signer c = m_admin s.
Proof.
  unfold assert_only_admin. destruct (bool_decide_reflect (m_admin s = c_signer c)) as [H|H]; cbn [require]; split; try congruence.
Qed.
Lemma staff_iff c s : assert_only_operator c s = Ok tt <-> (c_signer c = m_admin s \/ c_signer c = m_operator s).
Proof.
  unfold assert_only_operator. destruct (bool_decide_reflect (m_admin s = c_signer c)) as [H|H],
    (bool_decide_reflect (m_operator s = c_signer c)) as [K|K]; cbn [orb require]; split; intuition congruence.
Qed.
Lemma free_iff c : non_payable c = Ok tt <-> c_deposit c = 0.
Proof. unfold non_payable. destruct (N.eqb_spec (c_deposit c) 0); cbn [require]; split; congruence. Qed.
Lemma opcr_iff c s id : assert_only_operator_or_creator c s id = Ok tt <->
  exists p, om_get (m_proposals s) id = Some p /\ (c_signer c = m_operator s \/ c_signer c = pr_creator p).
Proof.
  unfold assert_only_operator_or_creator, get_mpip. destruct (om_get (m_proposals s) id) as [p|]; cbn [expect mbind res_bind].
  - destruct (bool_decide_reflect (m_operator s = c_signer c)) as [H|H],
      (bool_decide_reflect (pr_creator p = c_signer c)) as [K|K]; cbn [orb require]; split; try discriminate; try reflexivity;
      try (intros _; exists p; split; [reflexivity|]; auto; fail).
    intros (q & [= <-] & [E|E]); congruence.
  - split; [discriminate|]. intros (p & H & _). discriminate H.
Qed.
Lemma creator_iff c s id : assert_only_creator c s id = Ok tt <->
  exists p, om_get (m_proposals s) id = Some p /\ c_signer c = pr_creator p.
Proof.
  unfold assert_only_creator, get_mpip. destruct (om_get (m_proposals s) id) as [p|]; cbn [expect mbind res_bind].
  - destruct (bool_decide_reflect (pr_creator p = c_signer c)) as [K|K]; cbn [require]; split; try discriminate; try reflexivity.
    + intros _. exists p. auto.
    + intros (q & [= <-] & E). congruence.
  - split; [discriminate|]. intros (p & H & _). discriminate H.
Qed.
Lemma ad_iff c s id : assert_active_or_draft c s id = Ok tt <->
  exists p, om_get (m_proposals s) id = Some p /\ editable (now_ms c) p.
Proof.
  unfold assert_active_or_draft, get_mpip. destruct (om_get (m_proposals s) id) as [p|]; cbn [expect mbind res_bind].
  - split.
    + intros H. apply require_Ok, editable_iff in H. eauto.
    + intros (q & [= <-] & H). apply editable_iff in H. rewrite H. reflexivity.
  - split; [discriminate|]. intros (p & H & _). discriminate H.
Qed.
Lemma ov_iff c s id : assert_on_voting c s id = Ok tt <->
  exists p, om_get (m_proposals s) id = Some p /\ voting (now_ms c) p.
Proof.
  unfold assert_on_voting, get_mpip. destruct (om_get (m_proposals s) id) as [p|]; cbn [expect mbind res_bind].
  - split.
    + intros H. apply bind_Ok in H as (b & Hb & H). apply require_Ok in H as ->. apply voting_iff in Hb. eauto.
    + intros (q & [= <-] & H). apply voting_iff in H. rewrite H. reflexivity.
  - split; [discriminate|]. intros (p & H & _). discriminate H.
Qed.
Lemma unit_Ok (r : res unit) u : r = Ok u -> r = Ok tt.
Proof. destruct u. auto. Qed.

(** a started proposal has an end and a quorum *)
Definition SQ (w : world) : Prop := forall id p, om_get (m_proposals (w_m w)) id = Some p ->
  is_Some (pr_start p) -> is_Some (pr_end p) /\ is_Some (pr_quorum p).
Lemma SQ_reach w tr : mreach w tr -> SQ w.
Proof.
  intros (a & s0 & H0 & ->). induction tr as [|x tr IH] using rev_ind.
  - intros id p H. unfold mpip_new in H0. apply bind_Ok in H0 as (u & _ & H0). injection H0 as <-. discriminate H.
  - rewrite wrun_snoc. set (w := wrun (winit s0) tr) in *. intros id p' H. pose proof (pevol_step w x id) as E. rewrite H in E.
    remember (om_get (m_proposals (w_m w)) id) as o eqn:Eo. symmetry in Eo. remember (Some p') as o' eqn:Eo'.
    destruct E as [o|c o p p1 _ Hc|i ts q n t p _ _ _ _ _|i ts q ct t l o _ _ _ _ _].
    + rewrite Eo' in Eo. exact (IH _ _ Eo).
    + injection Eo' as <-. specialize (IH _ _ Eo). destruct Hc; exact IH.
    + injection Eo' as <-. intros _. cbn. split; eexists; reflexivity.
    + injection Eo' as <-. cbn. intros [? E]. discriminate E.
Qed.

(** ** Calls *)
Lemma voted_iff w id v : VI (w_m w) -> internal_has_voted (w_m w) id v = true <-> is_Some (b_ballot (observe w) id v).
Proof.
  intros HV. rewrite obs_ballot by exact HV. rewrite (vi_agree _ HV). apply has_voted_iff.
Qed.

Lemma om_set_n s id p p' : om_get (m_proposals s) id = Some p -> length (om_set (m_proposals s) id p') = length (m_proposals s).
Proof. intros H. rewrite om_set_length, H. reflexivity. Qed.

(** a proposal edited in place *)
Lemma edit_same w id p f :
  few_proposals (w_m w) -> VI (w_m w) -> om_get (m_proposals (w_m w)) id = Some p ->
  same (observe (mkWorld (w_m w <| m_proposals := om_set (m_proposals (w_m w)) id (f p) |>) (w_pend w))) (edit id f (observe w)).
Proof.
  intros Hf HV Hp.
  assert (Hn : n_proposals (w_m w <| m_proposals := om_set (m_proposals (w_m w)) id (f p) |>) = n_proposals (w_m w)) by (apply (om_set_n _ _ _ _ Hp)).
  apply same_obs; cbn [w_m w_pend].
  - unfold few_proposals in *. rewrite Hn. exact Hf.
  - revert HV. apply VI_ext; reflexivity.
  - reflexivity.
  - rewrite Hn. symmetry. apply (obs_count w Hf).
  - reflexivity.
  - intros id'. unfold edit. cbn [b_prop set]. rewrite obs_prop, Hp. change (m_proposals (w_m w <| m_proposals := ?m |>)) with m.
    destruct (decide (id' = id)) as [->|Hne].
    + rewrite put_eq, om_get_set_eq. reflexivity.
    + rewrite put_ne by exact Hne. rewrite om_get_set_ne by congruence. rewrite obs_prop. reflexivity.
  - intros a. reflexivity.
  - intros id' t. symmetry. apply obs_tally.
  - intros id' v. symmetry. apply (obs_ballot w id' v HV).
Qed.

Lemma quorum_spec s id p q : om_get (m_proposals s) id = Some p -> pr_quorum p = Some q ->
  is_quorum_reached s id =
  if tally_of (get_pvote s id) VFor + tally_of (get_pvote s id) VAbstain <? U128_SIZE
  then Ok (q <=? tally_of (get_pvote s id) VFor + tally_of (get_pvote s id) VAbstain) else Panic "attempt to add with overflow".
Proof.
  intros Hp Hq. unfold is_quorum_reached, get_mpip. rewrite Hp. cbn [expect mbind res_bind]. rewrite Hq. cbn [expect mbind res_bind].
  unfold add128. cbn [tally_of]. destruct (_ <? _); reflexivity.
Qed.

Section Call.
Context (w : world) (tr : list mevent) (c : ctx).
Hypothesis Hr : mreach w tr.
Hypothesis Hf : few_proposals (w_m w).

Let HV : VI (w_m w) := VI_reach _ _ Hr.
Let HS : SQ w := SQ_reach _ _ Hr.


Lemma closing_voting now p : closing now p -> is_on_voting now p = Ok true /\ pr_end p = Some now.
Proof. intros [H E]. split; [apply voting_iff; exact H|exact E]. Qed.

Lemma process_case id s' out : mcall c (w_m w) (ProcessVotingStatus id) = Ok (s', out) ->
  may c (observe w) (ProcessVotingStatus id) /\ out = ONone /\
  ((executes (observe w) (now_ms c) id /\ exists p, om_get (m_proposals (w_m w)) id = Some p /\
      s' = w_m w <| m_proposals := om_set (m_proposals (w_m w)) id (p <| pr_executed := true |>) |>) \/
   (~ executes (observe w) (now_ms c) id /\ s' = w_m w)).
Proof.
  cbn [mcall]. intros H. unfold process_voting_status in H. apply bind_Ok in H as (u1 & H1 & H). apply bind_Ok in H as (u2 & H2 & H).
  apply unit_Ok, free_iff in H1. apply unit_Ok, staff_iff in H2. apply bind_Ok in H as (p & Hp & H). apply get_mpip_Ok in Hp.
  apply bind_Ok in H as (b & Hb & H).
  assert (Hcl : closing (now_ms c) p -> b = true) by (intros [Hv _]; apply voting_iff in Hv; congruence).
  assert (Hex : executes (observe w) (now_ms c) id -> closing (now_ms c) p /\ exists q, pr_quorum p = Some q /\ q <= turnout (observe w) id).
  { intros (p' & q & E & Hc & Hq & Hl). rewrite obs_prop, Hp in E. injection E as <-. eauto. }
  cbn [may]. rewrite obs_prop. cbv zeta.
  assert (Hst : c_deposit c = 0 /\ (c_signer c = b_admin (observe w) \/ c_signer c = b_operator (observe w))) by (split; assumption).
  destruct b.
  - apply bind_Ok in H as (e & He & H). apply expect_Ok in He. pose proof Hb as Hv. apply voting_iff in Hv.
    destruct (N.leb_spec e (now_ms c)) as [Hle|Hle].
    + assert (e = now_ms c) as ->. { destruct Hv as (t & e' & _ & E' & Hlt & _). assert (e' = e) by congruence. lia. }
      destruct (HS _ _ Hp) as [_ [q Hq]]; [destruct Hv as (t & e' & E & _); rewrite E; eauto|].
      apply bind_Ok in H as (r & Hq' & H). rewrite (quorum_spec _ _ _ _ Hp Hq) in Hq'.
      destruct (N.ltb_spec (tally_of (get_pvote (w_m w) id) VFor + tally_of (get_pvote (w_m w) id) VAbstain) U128_SIZE) as [Hlt|]; [|discriminate].
      apply Ok_inj in Hq'. subst r.
      assert (Ht : turnout (observe w) id = tally_of (get_pvote (w_m w) id) VFor + tally_of (get_pvote (w_m w) id) VAbstain)
        by (unfold turnout; rewrite !obs_tally; reflexivity).
      rewrite <- Ht in *. destruct (N.leb_spec q (turnout (observe w) id)) as [Hr'|Hr']; injection H as <- <-.
      * split; [split; [exact Hst|]; exists p; auto|]. split; [reflexivity|]. left. split; [|eauto].
        exists p, q. rewrite obs_prop. split; [exact Hp|]. split; [split; assumption|]. auto.
      * split; [split; [exact Hst|]; exists p; auto|]. split; [reflexivity|]. right. split; [|reflexivity].
        intros Hx. apply Hex in Hx as (_ & q' & E & Hle'). assert (q' = q) by congruence. lia.
    + injection H as <- <-. assert (Hn : ~ closing (now_ms c) p) by (intros [_ E]; assert (e = now_ms c) by congruence; lia).
      split; [split; [exact Hst|]; exists p; split; [exact Hp|]; intros Hc; contradiction|]. split; [reflexivity|]. right.
      split; [|reflexivity]. intros Hx. apply Hex in Hx as [Hx _]. contradiction.
  - injection H as <- <-. assert (Hn : ~ closing (now_ms c) p) by (intros Hc; apply Hcl in Hc; discriminate).
    split; [split; [exact Hst|]; exists p; split; [exact Hp|]; intros Hc; contradiction|]. split; [reflexivity|]. right.
    split; [|reflexivity]. intros Hx. apply Hex in Hx as [Hx _]. contradiction.
Qed.

Lemma process_ok id : may c (observe w) (ProcessVotingStatus id) -> exists r, mcall c (w_m w) (ProcessVotingStatus id) = Ok r.
Proof.
  cbn [may mcall]. rewrite obs_prop. intros ([H1 H2] & p & Hp & Hc). unfold process_voting_status.
  rewrite (proj2 (free_iff c) H1). cbn [mbind res_bind]. rewrite (proj2 (staff_iff c (w_m w)) H2). cbn [mbind res_bind].
  unfold get_mpip at 1. rewrite Hp. cbn [expect mbind res_bind].
  assert (Hb : exists b, is_on_voting (now_ms c) p = Ok b).
  { unfold is_on_voting. destruct (pr_start p) as [t|] eqn:E; [|eauto]. destruct (t <=? now_ms c); [|eauto].
    destruct (HS _ _ Hp) as [[e Ee] _]; [rewrite E; eauto|]. rewrite Ee. cbn [expect mbind res_bind]. eauto. }
  destruct Hb as [b Hb]. rewrite Hb. cbn [mbind res_bind]. destruct b; [|eauto]. apply voting_iff in Hb.
  destruct Hb as (t & e & Et & Ee & Hlt & Hfl). rewrite Ee. cbn [expect mbind res_bind].
  destruct (N.leb_spec e (now_ms c)) as [Hle|]; [|eauto]. assert (e = now_ms c) as -> by lia.
  destruct (HS _ _ Hp) as [_ [q Hq]]; [rewrite Et; eauto|]. rewrite (quorum_spec _ _ _ _ Hp Hq).
  assert (Hcl : turnout (observe w) id < 2 ^ 128). { apply Hc. split; [|exact Ee]. exists t, (now_ms c). auto. }
  unfold turnout in Hcl. rewrite !obs_tally in Hcl. apply N.ltb_lt in Hcl. change (2 ^ 128) with U128_SIZE in Hcl. rewrite Hcl.
  cbn [mbind res_bind]. destruct (q <=? _); eauto.
Qed.

Lemma remove_ok id : may c (observe w) (RemoveVoteProposal id) -> exists r, mcall c (w_m w) (RemoveVoteProposal id) = Ok r.
Proof.
  cbn [may]. rewrite obs_prop. intros (H1 & H2 & p & Hp & Hv). apply (voted_iff w id (c_pred c) HV) in H2.
  destruct (c39 w tr c id p Hr H1) as (s' & u & H & _); [apply get_mpip_Ok; exact Hp|apply voting_iff; exact Hv|exact H2|].
  eauto.
Qed.

Lemma call_ok o : may c (observe w) o -> exists r, mcall c (w_m w) o = Ok r.
Proof.
  destruct o; try apply process_ok; try apply remove_ok; cbn [may]; cbv zeta; cbn [mcall].
  1-5: intros [H1 H2]; unfold update_open, update_operator_role, update_admin_role, pay_to_account, update_meta_vote_address;
    rewrite (proj2 (free_iff c) H1); cbn [mbind res_bind]; rewrite (proj2 (admin_iff c (w_m w)) H2); cbn [mbind res_bind]; eauto.
  1-4: intros [H1 H2]; unfold update_voting_period, update_min_meta, update_min_vp, update_storage;
    rewrite (proj2 (free_iff c) H1); cbn [mbind res_bind]; rewrite (proj2 (staff_iff c (w_m w)) H2); cbn [mbind res_bind]; eauto.
  - intros [[H1 H2] H3]. unfold update_quorum_floor.
    rewrite (proj2 (free_iff c) H1); cbn [mbind res_bind]; rewrite (proj2 (staff_iff c (w_m w)) H2); cbn [mbind res_bind].
    apply N.leb_le in H3. change 10000 with ONE_HUNDRED in H3. rewrite H3. cbn [require mbind res_bind]. eauto.
  - rewrite obs_prop. intros (H1 & p & Hp & H2 & H3). unfold start_voting_period. rewrite (proj2 (free_iff c) H1). cbn [mbind res_bind].
    rewrite (proj2 (opcr_iff c (w_m w) id)) by eauto. cbn [mbind res_bind]. rewrite (proj2 (ad_iff c (w_m w) id)) by eauto. cbn [mbind res_bind]. eauto.
  - intros [H1 H2]. unfold create_proposal. cbn [observe b_open b_fee] in H1, H2. rewrite H1. cbn [require mbind res_bind].
    apply N.leb_le in H2. rewrite H2. cbn [require mbind res_bind]. eauto.
  - rewrite obs_prop. intros (H1 & p & Hp & H2 & H3). unfold cancel_proposal. rewrite (proj2 (free_iff c) H1). cbn [mbind res_bind].
    rewrite (proj2 (opcr_iff c (w_m w) id)) by eauto. cbn [mbind res_bind]. rewrite (proj2 (ad_iff c (w_m w) id)) by eauto. cbn [mbind res_bind].
    unfold get_mpip. rewrite Hp. cbn [expect mbind res_bind]. eauto.
  - rewrite obs_prop. intros (H1 & p & Hp & H2 & H3). unfold update_proposal. rewrite (proj2 (free_iff c) H1). cbn [mbind res_bind].
    rewrite (proj2 (creator_iff c (w_m w) id)) by eauto. cbn [mbind res_bind]. rewrite (proj2 (ad_iff c (w_m w) id)) by eauto. cbn [mbind res_bind].
    unfold get_mpip. rewrite Hp. cbn [expect mbind res_bind]. eauto.
  - rewrite obs_prop. intros (H1 & H2 & p & Hp & H3). unfold vote_proposal. rewrite (proj2 (free_iff c) H1). cbn [mbind res_bind].
    rewrite (proj2 (ov_iff c (w_m w) id)) by eauto. cbn [mbind res_bind].
    destruct (internal_has_voted (w_m w) id (c_pred c)) eqn:E; [|cbn [negb require mbind res_bind]; eauto].
    apply (voted_iff w id (c_pred c) HV) in E. rewrite H2 in E. destruct E; discriminate.
Qed.

Lemma call_case o s' out : mcall c (w_m w) o = Ok (s', out) ->
  may c (observe w) o /\ out = asks c (observe w) o /\ after c (observe w) o (observe (wstep w (MCall c o))).
Proof.
  intros H. assert (Ew : wstep w (MCall c o) = mkWorld s' (match out with OAsk p => w_pend w ++ [p] | _ => w_pend w end)).
  { cbn [wstep]. rewrite H. destruct out; reflexivity. }
  rewrite Ew. clear Ew. destruct o.
  17: { apply process_case in H as (Hm & -> & Hc). split; [exact Hm|]. split; [reflexivity|]. cbn [after].
    destruct Hc as [[Hx (p & Hp & ->)]|[Hx ->]]; [left|right]; (split; [exact Hx|]).
    - apply (edit_same w id p (fun q => q <| pr_executed := true |>) Hf HV Hp).
    - destruct w. apply same_refl. }
  16: { pose proof (VI_remove _ _ _ _ _ HV H) as HV'. cbn [mcall] in H. apply remove_inv in H as (p & u & pv1 & H1 & Hp & Hv & Hh & Hu & Ev & Hle & Et & -> & Es).
    apply get_mpip_Ok in Hp. apply voting_iff in Hv. apply (voted_iff w id (c_pred c) HV) in Hh.
    cbn [may asks after]. rewrite obs_prop. split; [split; [exact H1|]; split; [exact Hh|]; eauto|]. split; [reflexivity|].
    exists u. rewrite obs_ballot, obs_tally by exact HV. split; [exact Hu|]. split; [exact Hle|]. apply same_obs; cbn [w_m w_pend].
    - rewrite Es. exact Hf.
    - exact HV'.
    - rewrite Es. reflexivity.
    - rewrite Es. symmetry. apply (obs_count w Hf).
    - reflexivity.
    - intros id'. rewrite Es. symmetry. apply obs_prop.
    - intros a. rewrite Es. reflexivity.
    - intros id' t. unfold set_ballot, recount. cbn [b_tally set]. destruct (decide (id' = id)) as [->|Hne].
      + rewrite put_eq, Es, pvote_set_eq, Et. unfold put. rewrite !obs_tally. destruct (decide (vt_type u = t)) as [<-|Hn].
        * rewrite decide_True by reflexivity. reflexivity.
        * rewrite decide_False by congruence. lia.
      + rewrite put_ne by exact Hne. rewrite Es, pvote_set_ne by congruence. symmetry. apply obs_tally.
    - intros id' v. unfold set_ballot, recount. cbn [b_ballot set]. destruct (decide (id' = id)) as [->|Hne].
      + rewrite put_eq, Es, pvote_set_eq, Ev. destruct (decide (v = c_pred c)) as [->|Hn].
        * rewrite put_eq. apply om_get_remove_eq. apply HV.
        * rewrite put_ne by exact Hn. rewrite om_get_remove_ne; [symmetry; apply (obs_ballot w id v HV)|apply HV|congruence].
      + rewrite put_ne by exact Hne. rewrite Es, pvote_set_ne by congruence. symmetry. apply (obs_ballot w id' v HV). }
  1-5: cbn [mcall] in H; unfold update_open, update_operator_role, update_admin_role, pay_to_account, update_meta_vote_address in H;
    apply bind_Ok in H as (u1 & H1 & H); apply bind_Ok in H as (u2 & H2 & H); apply unit_Ok, free_iff in H1; apply unit_Ok, admin_iff in H2;
    injection H as <- <-; (split; [split; assumption|]); (split; [reflexivity|]); destruct w; unfold same; repeat split; reflexivity.
  1-4: cbn [mcall] in H; unfold update_voting_period, update_min_meta, update_min_vp, update_storage in H;
    apply bind_Ok in H as (u1 & H1 & H); apply bind_Ok in H as (u2 & H2 & H); apply unit_Ok, free_iff in H1; apply unit_Ok, staff_iff in H2;
    injection H as <- <-; (split; [split; assumption|]); (split; [reflexivity|]); destruct w; unfold same; repeat split; reflexivity.
  - cbn [mcall] in H. unfold update_quorum_floor in H. apply bind_Ok in H as (u1 & H1 & H); apply bind_Ok in H as (u2 & H2 & H).
    apply bind_Ok in H as (u3 & H3 & H). apply unit_Ok, free_iff in H1; apply unit_Ok, staff_iff in H2. apply require_Ok, N.leb_le in H3.
    injection H as <- <-. split; [split; [split; assumption|exact H3]|]. split; [reflexivity|]. destruct w; unfold same; repeat split; reflexivity.
  - cbn [mcall] in H. unfold start_voting_period in H. apply bind_Ok in H as (u1 & H1 & H); apply bind_Ok in H as (u2 & H2 & H).
    apply bind_Ok in H as (u3 & H3 & H). apply unit_Ok, free_iff in H1. apply unit_Ok, opcr_iff in H2 as (p & Hp & H2).
    apply unit_Ok, ad_iff in H3 as (p' & Hp' & H3). assert (p' = p) as -> by congruence. injection H as <- <-.
    cbn [may]. rewrite obs_prop. split; [split; [exact H1|]; exists p; auto|]. split; [reflexivity|]. destruct w; unfold same; repeat split; reflexivity.
  - cbn [mcall] in H. unfold create_proposal in H. apply bind_Ok in H as (u1 & H1 & H); apply bind_Ok in H as (u2 & H2 & H).
    apply require_Ok in H1. apply require_Ok, N.leb_le in H2. injection H as <- <-. split; [split; assumption|]. split; [reflexivity|].
    destruct w; unfold same; repeat split; reflexivity.
  - cbn [mcall] in H. unfold cancel_proposal in H. apply bind_Ok in H as (u1 & H1 & H); apply bind_Ok in H as (u2 & H2 & H).
    apply bind_Ok in H as (u3 & H3 & H). apply bind_Ok in H as (p & Hp & H). apply get_mpip_Ok in Hp.
    apply unit_Ok, free_iff in H1. apply unit_Ok, opcr_iff in H2 as (p' & Hp' & H2). assert (p' = p) as -> by congruence.
    apply unit_Ok, ad_iff in H3 as (p' & Hp2 & H3). assert (p' = p) as -> by congruence. injection H as <- <-.
    cbn [may]. rewrite obs_prop. split; [split; [exact H1|]; exists p; auto|]. split; [reflexivity|].
    apply (edit_same w id p (fun q => q <| pr_canceled := true |>) Hf HV Hp).
  - cbn [mcall] in H. unfold update_proposal in H. apply bind_Ok in H as (u1 & H1 & H); apply bind_Ok in H as (u2 & H2 & H).
    apply bind_Ok in H as (u3 & H3 & H). apply bind_Ok in H as (p & Hp & H). apply get_mpip_Ok in Hp.
    apply unit_Ok, free_iff in H1. apply unit_Ok, creator_iff in H2 as (p' & Hp' & H2). assert (p' = p) as -> by congruence.
    apply unit_Ok, ad_iff in H3 as (p' & Hp2 & H3). assert (p' = p) as -> by congruence. injection H as <- <-.
    cbn [may]. rewrite obs_prop. split; [split; [exact H1|]; exists p; auto|]. split; [reflexivity|].
    apply (edit_same w id p (fun q => q <| pr_content := ct |>) Hf HV Hp).
  - cbn [mcall] in H. unfold vote_proposal in H. apply bind_Ok in H as (u1 & H1 & H); apply bind_Ok in H as (u2 & H2 & H).
    apply bind_Ok in H as (u3 & H3 & H). apply unit_Ok, free_iff in H1. apply unit_Ok, ov_iff in H2 as (p & Hp & H2).
    apply require_Ok, negb_true_iff in H3. injection H as <- <-.
    assert (Hb : b_ballot (observe w) id (c_pred c) = None).
    { destruct (b_ballot (observe w) id (c_pred c)) eqn:E; [|reflexivity]. exfalso.
      assert (internal_has_voted (w_m w) id (c_pred c) = true) by (apply voted_iff; [exact HV|rewrite E; eauto]). congruence. }
    cbn [may]. rewrite obs_prop. split; [split; [exact H1|]; split; [exact Hb|]; eauto|]. split; [reflexivity|].
    destruct w; unfold same; repeat split; reflexivity.
Qed.
End Call.
