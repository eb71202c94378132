(** MpipSized.v -- C89: every number the proposal contract stores fits the type that holds it. *)

From Verif Require Export MpipSpecSized.

Definition all {K V} (P : K -> V -> Prop) (m : omap_t K V) : Prop := Forall (fun kv => P kv.1 kv.2) m.
Lemma all_get {K V} `{EqDecision K} (P : K -> V -> Prop) (m : omap_t K V) k v : all P m -> om_get m k = Some v -> P k v.
Proof.
  induction m as [|[k' v'] m IH]; intros Hm H; [discriminate|]. cbn [om_get] in H. apply Forall_cons in Hm as [Hv Hm].
  destruct (decide (k = k')) as [->|]; [injection H as <-; exact Hv|exact (IH Hm H)].
Qed.
Lemma all_set {K V} `{EqDecision K} (P : K -> V -> Prop) (m : omap_t K V) k v : all P m -> P k v -> all P (om_set m k v).
Proof.
  intros Hm Hv. induction m as [|[k' v'] m IH]; [repeat constructor; exact Hv|]. cbn [om_set]. apply Forall_cons in Hm as [Hv' Hm].
  destruct (decide (k = k')) as [->|]; constructor; auto. apply IH. exact Hm.
Qed.
Lemma all_remove {K V} `{EqDecision K} (P : K -> V -> Prop) (m : omap_t K V) k : all P m -> all P (om_remove m k).
Proof. intros Hm. unfold om_remove. destruct (om_index m k); [|exact Hm]. apply Forall_swap_remove. exact Hm. Qed.

Definition oku (u : mvote) : Prop := fits32 (vt_mpip u) /\ fits128 (vt_power u).
Definition okv (v : pvote) : Prop :=
  fits128 (pv_for v) /\ fits128 (pv_against v) /\ fits128 (pv_abstain v) /\ all (fun _ => oku) (pv_voted v).
Record OK (s : mstate) : Prop := {
  ok_period : fits64 (m_period s); ok_meta : fits128 (m_min_meta s); ok_st : fits128 (m_min_st s); ok_vp : fits128 (m_min_vp s);
  ok_cost : fits128 (m_cost_meta s); ok_fee : fits128 (m_storage s); ok_floor : fits16 (m_floor s);
  ok_props : all (fun id p => fits32 id /\ sized_mpip p) (m_proposals s);
  ok_votes : all (fun _ v => okv v) (m_votes s);
  ok_voters : all (fun _ m => all (fun id u => fits32 id /\ oku u) m) (m_voters s);
  ok_made : all (fun _ l => Forall fits32 l) (m_proposers s);
}.

Lemma ok_get s id p : OK s -> get_mpip s id = Ok p -> fits32 id /\ sized_mpip p.
Proof. intros H E. apply expect_Ok in E. exact (all_get _ _ _ _ (ok_props s H) E). Qed.
Lemma ok_pvote s id : OK s -> okv (get_pvote s id).
Proof.
  intros H. unfold get_pvote. destruct (om_get (m_votes s) id) as [v|] eqn:E; [exact (all_get _ _ _ _ (ok_votes s H) E)|].
  repeat split; constructor.
Qed.
Lemma ok_mvoter s a : OK s -> all (fun id u => fits32 id /\ oku u) (get_mvoter s a).
Proof. intros H. unfold get_mvoter. destruct (om_get (m_voters s) a) as [v|] eqn:E; [exact (all_get _ _ _ _ (ok_voters s H) E)|constructor]. Qed.
Lemma ok_proposer s a : OK s -> Forall fits32 (get_proposer s a).
Proof. intros H. unfold get_proposer. destruct (om_get (m_proposers s) a) as [v|] eqn:E; [exact (all_get _ _ _ _ (ok_made s H) E)|constructor]. Qed.

Lemma total_fits a n : total_from_promise a = Ok n -> fits128 n.
Proof. unfold total_from_promise. destruct a; [discriminate|]. intros H. rinv. nb. assumption. Qed.
Lemma power_fits a n : user_power_from_promise a = Ok n -> fits128 n.
Proof.
  unfold user_power_from_promise. destruct a as [|t l]; [discriminate|]. intros H. apply bind_Ok in H as (l' & _ & H).
  apply bind_Ok in H as (_ & _ & H). revert H. assert (H0 : fits128 0) by reflexivity. revert H0. generalize 0 as r.
  induction l' as [|j l' IH]; intros r Hr H; cbn [foldM] in H; [injection H as <-; exact Hr|].
  apply bind_Ok in H as (r' & H1 & H2). refine (IH _ _ H2). destruct (jp_is_locked j); [|injection H1 as <-; exact Hr].
  apply add128_Ok in H1 as [-> H1]. exact H1.
Qed.
Lemma ok_add v vt n v' : okv v -> fits128 n -> add_tally v vt n = Ok v' -> okv v'.
Proof.
  intros (H1 & H2 & H3 & H4) Hn H. unfold add_tally in H. destruct vt; rinv; repeat split; assumption.
Qed.
Lemma ok_sub v vt n v' : okv v -> sub_tally v vt n = Ok v' -> okv v'.
Proof.
  intros (H1 & H2 & H3 & H4) H. unfold fits128 in *. unfold sub_tally in H.
  destruct vt; rinv; repeat split; try assumption; unfold fits128; cbn [pv_for pv_against pv_abstain set]; lia.
Qed.

Lemma ok_mcall c s o s' out : OK s -> fits64 (c_ts c) -> sized_mop o -> mcall c s o = Ok (s', out) -> OK s' /\ sized_out out.
Proof.
  intros HK Ht Ho H. pose proof HK as [K1 K2 K3 K4 K5 K6 K7 K8 K9 K10 K11]. destruct o; cbn [mcall sized_mop] in *.
  - unfold update_open in H. rinv. split; [constructor; assumption|exact I].
  - unfold update_operator_role in H. rinv. split; [constructor; assumption|exact I].
  - unfold update_admin_role in H. rinv. split; [constructor; assumption|exact I].
  - unfold pay_to_account in H. rinv. split; [constructor; assumption|exact Ho].
  - unfold update_meta_vote_address in H. rinv. split; [constructor; assumption|exact I].
  - unfold update_voting_period in H. rinv. split; [constructor; assumption|exact I].
  - unfold update_min_meta in H. rinv. split; [constructor; assumption|exact I].
  - unfold update_min_vp in H. rinv. split; [constructor; assumption|exact I].
  - unfold update_storage in H. rinv. split; [constructor; assumption|exact I].
  - unfold update_quorum_floor in H. rinv. split; [constructor; assumption|exact I].
  - unfold start_voting_period, assert_only_operator_or_creator in H. apply bind_Ok in H as (? & _ & H). apply bind_Ok in H as (? & E & H).
    apply bind_Ok in E as (p & E & _). rinv. split; [exact HK|]. exact (proj1 (ok_get _ _ _ HK E)).
  - unfold create_proposal in H. rinv. split; [exact HK|exact I].
  - unfold cancel_proposal in H. apply bind_Ok in H as (? & _ & H). apply bind_Ok in H as (? & _ & H). apply bind_Ok in H as (? & _ & H).
    apply bind_Ok in H as (p & E & H). destruct (ok_get _ _ _ HK E) as [Hi Hp]. injection H as <- <-.
    split; [|exact I]. constructor; try assumption. cbn [m_proposals set]. apply all_set; [exact K8|]. split; [exact Hi|exact Hp].
  - unfold update_proposal in H. apply bind_Ok in H as (? & _ & H). apply bind_Ok in H as (? & _ & H). apply bind_Ok in H as (? & _ & H).
    apply bind_Ok in H as (p & E & H). destruct (ok_get _ _ _ HK E) as [Hi Hp]. injection H as <- <-.
    split; [|exact I]. constructor; try assumption. cbn [m_proposals set]. apply all_set; [exact K8|]. split; [exact Hi|exact Hp].
  - unfold vote_proposal, assert_on_voting in H. apply bind_Ok in H as (? & _ & H). apply bind_Ok in H as (? & E & H).
    apply bind_Ok in E as (p & E & _). rinv. split; [exact HK|]. exact (proj1 (ok_get _ _ _ HK E)).
  - unfold remove_vote_proposal in H. apply bind_Ok in H as (? & _ & H). apply bind_Ok in H as (? & _ & H). apply bind_Ok in H as (? & _ & H).
    apply bind_Ok in H as (u & _ & H). apply bind_Ok in H as (v1 & E & H).
    apply ok_sub in E as (V1 & V2 & V3 & V4); [|apply ok_pvote; exact HK]. injection H as <- <-. split; [|exact I]. constructor; try assumption.
    + cbn [m_votes set]. apply all_set; [exact K9|]. repeat split; try assumption. cbn [pv_voted set]. apply all_remove. exact V4.
    + cbn [m_voters set]. destruct (om_remove (get_mvoter s (c_pred c)) id) eqn:E; [apply all_remove; exact K10|].
      rewrite <- E. apply all_set; [exact K10|]. apply all_remove, ok_mvoter. exact HK.
  - unfold process_voting_status in H. apply bind_Ok in H as (? & _ & H). apply bind_Ok in H as (? & _ & H).
    apply bind_Ok in H as (p & E & H). destruct (ok_get _ _ _ HK E) as [Hi Hp]. apply bind_Ok in H as (b & _ & H).
    destruct b; [|injection H as <- <-; split; [exact HK|exact I]]. apply bind_Ok in H as (e & _ & H).
    destruct (e <=? now_ms c); [|injection H as <- <-; split; [exact HK|exact I]]. apply bind_Ok in H as (q & _ & H).
    destruct q; injection H as <- <-; (split; [|exact I]); [|exact HK].
    constructor; try assumption. cbn [m_proposals set]. apply all_set; [exact K8|]. split; [exact Hi|exact Hp].
Qed.

Lemma ok_callback c s p a s' : OK s -> fits64 (c_ts c) -> sized_pending p -> mcallback c s (pd_kind p) a = Ok s' -> OK s'.
Proof.
  intros HK Ht Hp H. pose proof HK as [K1 K2 K3 K4 K5 K6 K7 K8 K9 K10 K11]. unfold sized_pending in Hp. destruct (pd_kind p); cbn [mcallback] in H.
  - unfold start_callback in H. apply bind_Ok in H as (t & E1 & H). apply bind_Ok in H as (q & E2 & H). apply bind_Ok in H as (e & E3 & H).
    apply bind_Ok in H as (n & E4 & H). injection H as <-. destruct (ok_get _ _ _ HK E2) as [Hi (Q1 & Q2 & Q3 & Q4)].
    constructor; try assumption. cbn [m_proposals set]. apply all_set; [exact K8|]. split; [exact Hi|]. split; [exact Q1|].
    cbn [pr_start pr_end pr_quorum set opt_fits]. split; [|split].
    + unfold fits64, now_ms in *. change (2 ^ 64) with 18446744073709551616 in *. eapply N.le_lt_trans; [|exact Ht].
      apply N.div_le_upper_bound; lia.
    + unfold add64 in E3. destruct (N.ltb_spec (now_ms c + m_period s) U64_SIZE) as [L|]; [|discriminate]. injection E3 as <-. exact L.
    + unfold get_quorum in E4. apply bind_Ok in E4 as (x & E4 & E). apply mul128_Ok in E4 as [-> E4]. injection E as <-.
      eapply N.le_lt_trans; [|exact E4]. rewrite N.div_div by lia. apply N.div_le_upper_bound; lia.
  - unfold create_callback in H. apply bind_Ok in H as (? & _ & H). apply bind_Ok in H as (? & _ & H). injection H as <-.
    assert (Hi : fits32 (N.of_nat (length (m_proposals s)) mod U32_SIZE)) by (apply N.mod_lt; discriminate).
    constructor; try assumption.
    + cbn [m_proposals set]. apply all_set; [exact K8|]. split; [exact Hi|]. repeat split. exact Hi.
    + cbn [m_proposers set]. apply all_set; [exact K11|]. apply Forall_app. split; [apply ok_proposer; exact HK|]. repeat constructor. exact Hi.
  - unfold vote_callback in H. apply bind_Ok in H as (n & E & H). apply power_fits in E. apply bind_Ok in H as (? & _ & H).
    apply bind_Ok in H as (v1 & E1 & H). injection H as <-. apply ok_add in E1; [| |exact E].
    + constructor; try assumption.
      * cbn [m_votes set]. apply all_set; [exact K9|exact E1].
      * cbn [m_voters set]. apply all_set; [exact K10|]. apply all_set; [apply ok_mvoter; exact HK|]. split; [exact Hp|]. split; [exact Hp|exact E].
    + destruct (ok_pvote s id HK) as (V1 & V2 & V3 & V4). repeat split; try assumption. cbn [pv_voted set]. apply all_set; [exact V4|].
      split; [exact Hp|exact E].
Qed.

Definition WOK (w : world) : Prop := OK (w_m w) /\ Forall sized_pending (w_pend w).
Lemma wok_step w x : WOK w -> sized_event x -> WOK (wstep w x).
Proof.
  intros [HK Hp] Hx. destruct x as [c o|i ts a]; cbn [wstep sized_event] in *.
  - destruct Hx as [Ht Ho]. destruct (mcall c (w_m w) o) as [[s' out]|] eqn:E; [|split; assumption].
    destruct (ok_mcall _ _ _ _ _ HK Ht Ho E) as [H1 H2]. destruct out as [|p|? ?]; (split; [exact H1|]); cbn [w_pend]; try exact Hp.
    apply Forall_app. split; [exact Hp|]. repeat constructor. exact H2.
  - destruct (w_pend w !! i) as [p|] eqn:E; [|split; assumption]. split; cbn [w_m w_pend].
    + destruct (mcallback _ _ _ _) as [s'|] eqn:E'; [|exact HK]. eapply ok_callback; [exact HK| | |exact E'].
      * exact Hx.
      * eapply Forall_lookup_1; [exact Hp|exact E].
    + apply Forall_delete. exact Hp.
Qed.
Lemma wok_run tr w : WOK w -> Forall sized_event tr -> WOK (wrun w tr).
Proof.
  revert w. induction tr as [|x tr IH]; intros w Hw Ht; [exact Hw|]. apply Forall_cons in Ht as [Hx Ht].
  exact (IH _ (wok_step _ _ Hw Hx) Ht).
Qed.
Lemma wok_new a s0 : mpip_new a = Ok s0 -> sized_args a -> WOK (winit s0).
Proof. unfold mpip_new. intros H (A1 & A2 & A3 & A4). rinv. split; [|constructor]. constructor; try assumption; try constructor. Qed.

Lemma wok_sees w : WOK w -> sized_board (observe w).
Proof.
  intros [HK Hp]. pose proof HK as [K1 K2 K3 K4 K5 K6 K7 K8 K9 K10 K11]. unfold sized_board. cbn [observe b_period b_min_meta b_min_st b_threshold
    b_cost b_fee b_floor b_prop b_made b_tally b_ballot b_wait].
  do 7 (split; [assumption|]). split; [|split; [|split; [|split; [|exact Hp]]]].
  - intros id p H. destruct (get_proposal (w_m w) id) as [q|] eqn:E; [|discriminate]. injection H as <-. exact (ok_get _ _ _ HK E).
  - intros a. apply ok_proposer. exact HK.
  - intros id t. unfold tally, get_proposal_votes. destruct (ok_pvote (w_m w) id HK) as (V1 & V2 & V3 & _). destruct t; assumption.
  - intros id v u H. unfold get_my_vote in H. destruct (internal_has_voted (w_m w) id v); [|discriminate].
    destruct (om_get (m_voters (w_m w)) v) as [m|] eqn:E; [|discriminate]. cbn in H. destruct (om_get m id) as [u'|] eqn:E2; [|discriminate].
    injection H as <-. pose proof (all_get _ _ _ _ K10 E) as Hm. exact (all_get _ _ _ _ Hm E2).
Qed.

Lemma c89_stored a s0 tr : mpip_new a = Ok s0 -> sized_args a -> Forall sized_event tr -> sized_board (observe (wrun (winit s0) tr)).
Proof. intros H Ha Ht. apply wok_sees, wok_run; [exact (wok_new _ _ H Ha)|exact Ht]. Qed.
Lemma c89_sent a s0 tr c o s' out : mpip_new a = Ok s0 -> sized_args a -> Forall sized_event tr -> sized_event (MCall c o) ->
  mcall c (w_m (wrun (winit s0) tr)) o = Ok (s', out) -> sized_out out.
Proof.
  intros H Ha Ht [Hc Ho] E. pose proof (wok_run _ _ (wok_new _ _ H Ha) Ht) as [HK _]. exact (proj2 (ok_mcall _ _ _ _ _ HK Hc Ho E)).
Qed.
