(** MpipTime.v -- voting windows, weights, roles, creation (C45-C52). *)

From Verif Require Import MpipSpec MpipInv MpipLife.

(** ** Where pending callbacks come from *)
Lemma pend_origin w0 tr p :
  w_pend w0 = [] -> In p (w_pend (wrun w0 tr)) ->
  exists tr1 c o tr2, tr = tr1 ++ MCall c o :: tr2 /\
    mcall c (w_m (wrun w0 tr1)) o = Ok (w_m (wrun w0 tr1), OAsk p).
Proof.
  intros H0. induction tr as [|x tr IH] using rev_ind; intros Hin.
  { cbn in Hin. rewrite H0 in Hin. destruct Hin. }
  assert (Hold : In p (w_pend (wrun w0 tr)) -> exists tr1 c o tr2, tr ++ [x] = tr1 ++ MCall c o :: tr2 /\
    mcall c (w_m (wrun w0 tr1)) o = Ok (w_m (wrun w0 tr1), OAsk p)).
  { intros H. destruct (IH H) as (tr1 & c & o & tr2 & -> & Hc). exists tr1, c, o, (tr2 ++ [x]).
    split; [rewrite <- app_assoc; reflexivity|exact Hc]. }
  rewrite wrun_snoc in Hin.
  destruct (wstep_case (wrun w0 tr) x) as [x|c o s' out Hc Ho|c o s' q Hc|i ts a q s' Hi Hc|i ts a q m Hi Hc]; cbn [w_pend] in Hin.
  - apply Hold, Hin.
  - apply Hold, Hin.
  - apply in_app_iff in Hin as [Hin|[->|[]]]; [apply Hold, Hin|].
    exists tr, c, o, []. split; [reflexivity|]. destruct (mcall_asks _ _ _ _ _ Hc) as (-> & _). exact Hc.
  - apply Hold. apply elem_of_list_In. apply elem_of_list_In in Hin. eapply elem_of_submseteq; [exact Hin|apply submseteq_delete].
  - apply Hold. apply elem_of_list_In. apply elem_of_list_In in Hin. eapply elem_of_submseteq; [exact Hin|apply submseteq_delete].
Qed.

(** ** C45 *)
Lemma in_window_iff now p : is_on_voting now p = Ok true <-> in_window now p.
Proof.
  split; [apply on_voting_flags|]. intros (d & e & E1 & E2 & [H1 H2] & E3 & E4 & E5).
  unfold is_on_voting. rewrite E1, (proj2 (N.leb_le _ _) H1), E2. cbn [expect mbind res_bind].
  rewrite (proj2 (N.leb_le _ _) H2), E3, E4, E5. reflexivity.
Qed.
Lemma c45_vote c s id vt memo : mok c s (VoteProposal id vt memo) ->
  exists p, get_proposal s id = Ok p /\ in_window (now_ms c) p /\ has_voted s (c_pred c) id = false.
Proof.
  intros ([s' out] & H). cbn [mcall] in H. unfold vote_proposal in H. apply bind_Ok in H as (u1 & _ & H).
  apply bind_Ok in H as (u2 & Hv & H). apply bind_Ok in H as (u3 & Hn & H). apply require_Ok, negb_true_iff in Hn.
  unfold assert_on_voting in Hv. apply bind_Ok in Hv as (q & Hq & Hv). apply bind_Ok in Hv as (b & Hb & Hv).
  apply require_Ok in Hv as ->. exists q. split; [exact Hq|]. split; [apply in_window_iff; exact Hb|exact Hn].
Qed.
Lemma c45_remove c s id : mok c s (RemoveVoteProposal id) ->
  exists p, get_proposal s id = Ok p /\ in_window (now_ms c) p /\ has_voted s (c_pred c) id = true.
Proof.
  intros ([s' out] & H). cbn [mcall] in H. unfold remove_vote_proposal in H. apply bind_Ok in H as (u1 & _ & H).
  apply bind_Ok in H as (u2 & Hv & H). apply bind_Ok in H as (u3 & Hn & H). apply require_Ok in Hn.
  unfold assert_on_voting in Hv. apply bind_Ok in Hv as (q & Hq & Hv). apply bind_Ok in Hv as (b & Hb & Hv).
  apply require_Ok in Hv as ->. exists q. split; [exact Hq|]. split; [apply in_window_iff; exact Hb|exact Hn].
Qed.

(** ** C46 *)
Definition same_votes (s s' : mstate) : Prop :=
  (forall id t, tally s' id t = tally s id t) /\ (forall id, listed s' id = listed s id) /\
  (forall v id, get_my_vote s' v id = get_my_vote s v id).
Lemma same_votes_ext s s' : m_votes s' = m_votes s -> m_voters s' = m_voters s -> same_votes s s'.
Proof.
  intros E1 E2. repeat split; intros; rewrite ?tally_eq, ?listed_eq; unfold get_pvote; rewrite ?E1; try reflexivity.
  unfold get_my_vote, internal_has_voted. rewrite E2. reflexivity.
Qed.
Lemma c46 w tr i ts a : mreach w tr -> let s := w_m w in let s' := w_m (wstep w (MAnswer i ts a)) in
  same_votes s s' \/
  exists p id v vt memo t l, w_pend w !! i = Some p /\ pd_kind p = KVote id v vt memo /\
    a = ABytes t (Some l) /\ 1 <= locked_sum l /\
    get_my_vote s' v id = Ok (Some (v, mkMvote id vt (locked_sum l) memo)) /\
    (forall t', tally s' id t' = tally s id t' + (if decide (vt = t') then locked_sum l else 0)) /\
    (forall id' t', id' <> id -> tally s' id' t' = tally s id' t') /\
    (forall v' id', (v', id') <> (v, id) -> get_my_vote s' v' id' = get_my_vote s v' id').
Proof.
  intros Hr s s'. pose proof (VI_reach _ _ Hr) as HV. fold s in HV.
  pose proof (VI_step w (MAnswer i ts a) HV) as HV'. fold s' in HV'. subst s'. cbn [wstep] in *.
  destruct (w_pend w !! i) as [p|] eqn:Hi; [|left; apply same_votes_ext; reflexivity].
  cbn [w_m] in *. destruct (mcallback _ _ _ _) as [s'|m] eqn:Hc; [|left; apply same_votes_ext; reflexivity].
  destruct (vote_dec (pd_kind p)) as [(id & v & vt & memo & Ek)|Hn].
  2: { left. apply mcallback_votes in Hc as [E1 E2]; [|exact Hn]. apply same_votes_ext; assumption. }
  right. rewrite Ek in Hc. cbn [mcallback] in Hc.
  apply vote_cb_inv in Hc as (t & l & pv1 & -> & Hpos & Ev & Hb & Et & Es).
  exists p, id, v, vt, memo, t, l. split; [reflexivity|]. split; [exact Ek|]. split; [reflexivity|]. split; [lia|].
  assert (Ep : get_pvote s' id = pv1) by (rewrite Es; apply pvote_set_eq).
  assert (Epn : forall id', id' <> id -> get_pvote s' id' = get_pvote s id') by (intros id' Hi'; rewrite Es; apply pvote_set_ne; congruence).
  split; [rewrite (my_vote_eq _ _ _ HV'), Ep, Ev, om_get_set_eq; reflexivity|].
  split; [intros t'; rewrite !tally_eq, Ep; apply Et|].
  split; [intros id' t' Hne; rewrite !tally_eq, Epn by exact Hne; reflexivity|].
  intros v' id' Hne. rewrite (my_vote_eq _ _ _ HV'), (my_vote_eq _ _ _ HV). f_equal. f_equal.
  destruct (decide (id' = id)) as [->|Hi']; [|rewrite Epn by exact Hi'; reflexivity].
  rewrite Ep, Ev. apply om_get_set_ne. congruence.
Qed.
Lemma c46_failed w i ts a : (a = AFailed \/ exists t, a = ABytes t None) -> w_pend w !! i = None \/
  (exists p id v vt memo, w_pend w !! i = Some p /\ pd_kind p = KVote id v vt memo) ->
  w_m (wstep w (MAnswer i ts a)) = w_m w.
Proof.
  intros Ha Hi. cbn [wstep]. destruct Hi as [->|(p & id & v & vt & memo & -> & Ek)]; [reflexivity|]. cbn [w_m]. rewrite Ek. cbn [mcallback].
  unfold vote_callback. destruct Ha as [->|(t & ->)]; reflexivity.
Qed.
(** Every vote an answer counts was cast by a call inside the window. *)
Lemma c45_origin a0 s0 tr i ts a :
  mpip_new a0 = Ok s0 -> let w := wrun (winit s0) tr in let s := w_m w in let s' := w_m (wstep w (MAnswer i ts a)) in
  same_votes s s' \/
  exists tr1 c id vt memo tr2 q u, tr = tr1 ++ MCall c (VoteProposal id vt memo) :: tr2 /\
    get_proposal (w_m (wrun (winit s0) tr1)) id = Ok q /\ in_window (now_ms c) q /\
    get_my_vote s' (c_pred c) id = Ok (Some (c_pred c, u)) /\ vt_type u = vt /\ vt_memo u = memo /\
    (forall v' id', (v', id') <> (c_pred c, id) -> get_my_vote s' v' id' = get_my_vote s v' id').
Proof.
  intros H0 w s s'. assert (Hr : mreach w tr) by (exists a0, s0; auto).
  destruct (c46 w tr i ts a Hr) as [H|(p & id & v & vt & memo & t & l & Hi & Hk & _ & _ & Hm & _ & _ & Ho)]; [left; exact H|right].
  subst w. pose proof (elem_of_list_lookup_2 _ _ _ Hi) as Hin. apply elem_of_list_In in Hin.
  destruct (pend_origin (winit s0) tr p eq_refl Hin) as (tr1 & c & o & tr2 & E & Hc).
  pose proof (mcall_asks _ _ _ _ _ Hc) as (_ & _ & _ & Hx). rewrite Hk in Hx.
  destruct Hx as (-> & -> & _ & _ & _ & q & Hq & Hv). exists tr1, c, id, vt, memo, tr2, q. eexists. split; [exact E|].
  split; [exact Hq|]. split; [apply in_window_iff; exact Hv|]. split; [exact Hm|]. split; [reflexivity|]. split; [reflexivity|]. exact Ho.
Qed.

(** ** C47 *)
Lemma c47_roles c s o : mok c s o ->
  (admin_call o = true -> c_signer c = m_admin s) /\
  (operator_call o = true -> c_signer c = m_admin s \/ c_signer c = m_operator s) /\
  (forall id, o = StartVoting id \/ o = CancelProposal id ->
     exists p, get_proposal s id = Ok p /\ (c_signer c = m_operator s \/ c_signer c = pr_creator p)) /\
  (forall id ct, o = UpdateProposal id ct -> exists p, get_proposal s id = Ok p /\ c_signer c = pr_creator p).
Proof.
  intros ([s' out] & H). split; [|split; [|split]].
  - intros Ho. destruct o; try discriminate Ho; cbn [mcall] in H;
    unfold update_open, update_operator_role, update_admin_role, pay_to_account, update_meta_vote_address, assert_only_admin in H;
    apply bind_Ok in H as (u1 & _ & H); apply bind_Ok in H as (u2 & Ha & H); apply require_Ok, bool_decide_eq_true in Ha;
    symmetry; exact Ha.
  - intros Ho. destruct o; try discriminate Ho; cbn [mcall] in H;
    unfold update_voting_period, update_min_meta, update_min_vp, update_storage, update_quorum_floor, process_voting_status, assert_only_operator in H;
    apply bind_Ok in H as (u1 & _ & H); apply bind_Ok in H as (u2 & Ha & H); apply require_Ok, orb_true_iff in Ha;
    rewrite !bool_decide_eq_true in Ha; destruct Ha as [Ha|Ha]; auto.
  - intros id [->| ->]; cbn [mcall] in H; unfold start_voting_period, cancel_proposal, assert_only_operator_or_creator in H;
    apply bind_Ok in H as (u1 & _ & H); apply bind_Ok in H as (u2 & Ha & H); apply bind_Ok in Ha as (p & Hp & Ha);
    apply require_Ok, orb_true_iff in Ha; rewrite !bool_decide_eq_true in Ha; exists p; (split; [exact Hp|]); destruct Ha; auto.
  - intros id ct ->; cbn [mcall] in H; unfold update_proposal, assert_only_creator in H;
    apply bind_Ok in H as (u1 & _ & H); apply bind_Ok in H as (u2 & Ha & H); apply bind_Ok in Ha as (p & Hp & Ha);
    apply require_Ok in Ha; rewrite !bool_decide_eq_true in Ha; exists p; split; [exact Hp|auto].
Qed.
Lemma mcall_settings c s o s' out : mcall c s o = Ok (s', out) ->
  settings s' = settings s \/ admin_call o = true \/ operator_call o = true.
Proof.
  intros H. destruct o; auto; left; cbn [mcall] in H;
    try (apply remove_inv in H as (? & ? & ? & _ & _ & _ & _ & _ & _ & _ & _ & _ & ->); reflexivity);
    unfold start_voting_period, create_proposal, cancel_proposal, update_proposal, vote_proposal in H; rinv; reflexivity.
Qed.
Lemma mcallback_settings c s k a s' : mcallback c s k a = Ok s' -> settings s' = settings s.
Proof.
  intros H. destruct k; cbn [mcallback] in H.
  - unfold start_callback in H. apply bind_Ok in H as (? & _ & H). apply bind_Ok in H as (? & _ & H).
    apply bind_Ok in H as (? & _ & H). apply bind_Ok in H as (? & _ & H). injection H as <-. reflexivity.
  - unfold create_callback in H. apply bind_Ok in H as (? & _ & H). apply bind_Ok in H as (? & _ & H). injection H as <-. reflexivity.
  - apply vote_cb_inv in H as (? & ? & ? & _ & _ & _ & _ & _ & ->). reflexivity.
Qed.
Lemma c47_settings w x : settings (w_m (wstep w x)) <> settings (w_m w) ->
  exists c o, x = MCall c o /\
   (admin_call o = true /\ c_signer c = m_admin (w_m w) \/
    operator_call o = true /\ (c_signer c = m_admin (w_m w) \/ c_signer c = m_operator (w_m w))).
Proof.
  intros Hne.
  assert (Hcall : forall c o s' out, mcall c (w_m w) o = Ok (s', out) -> settings s' <> settings (w_m w) ->
     exists c0 o0, MCall c o = MCall c0 o0 /\
   (admin_call o0 = true /\ c_signer c0 = m_admin (w_m w) \/
    operator_call o0 = true /\ (c_signer c0 = m_admin (w_m w) \/ c_signer c0 = m_operator (w_m w)))).
  { intros c o s' out Hc Hn. exists c, o. split; [reflexivity|].
    assert (Hok : mok c (w_m w) o) by (exists (s', out); exact Hc). destruct (c47_roles _ _ _ Hok) as (R1 & R2 & _).
    destruct (mcall_settings _ _ _ _ _ Hc) as [E|[E|E]]; [contradiction|left; auto|right; auto]. }
  destruct (wstep_case w x) as [x|c o s' out Hc Ho|c o s' q Hc|i ts a q s' Hi Hc|i ts a q m Hi Hc]; cbn [w_m] in Hne.
  - contradiction.
  - eapply Hcall; eassumption.
  - eapply Hcall; eassumption.
  - apply mcallback_settings in Hc. contradiction.
  - contradiction.
Qed.

(** ** C48 *)
Lemma floor_step w x : m_floor (w_m w) <= 10000 -> m_floor (w_m (wstep w x)) <= 10000.
Proof.
  intros H. destruct (wstep_case w x) as [x|c o s' out Hc Ho|c o s' q Hc|i ts a q s' Hi Hc|i ts a q m Hi Hc]; cbn [w_m]; auto.
  - destruct (decide (m_floor s' = m_floor (w_m w))) as [E|Hne]; [rewrite E; exact H|].
    destruct (mcall_settings _ _ _ _ _ Hc) as [E|E]; [unfold settings in E; congruence|].
    destruct o; cbn [admin_call operator_call] in E; try (exfalso; destruct E; discriminate); cbn [mcall] in Hc.
    11: { apply process_inv in Hc as (_ & _ & [->|(p & _ & _ & _ & _ & ->)]); contradiction Hne; reflexivity. }
    all: unfold update_open, update_operator_role, update_admin_role, pay_to_account, update_meta_vote_address,
      update_voting_period, update_min_meta, update_min_vp, update_storage, update_quorum_floor in Hc;
     apply bind_Ok in Hc as (? & _ & Hc); apply bind_Ok in Hc as (? & _ & Hc); try (injection Hc as <- <-; contradiction Hne; reflexivity).
    apply bind_Ok in Hc as (? & Hb & Hc). apply require_Ok, N.leb_le in Hb. injection Hc as <- <-. exact Hb.
  - destruct (mcall_asks _ _ _ _ _ Hc) as (-> & _). exact H.
  - apply mcallback_settings in Hc. unfold settings in Hc. assert (m_floor s' = m_floor (w_m w)) as -> by congruence. exact H.
Qed.
Lemma c48_floor w tr : mreach w tr -> m_floor (w_m w) <= 10000.
Proof.
  intros (a & s0 & H0 & ->). apply (wrun_inv (fun w => m_floor (w_m w) <= 10000) (fun _ _ => True)).
  - apply walong_True.
  - intros w x Hw _. apply floor_step. exact Hw.
  - unfold mpip_new in H0. apply bind_Ok in H0 as (u & Hu & H0). apply require_Ok, N.leb_le in Hu. injection H0 as <-. exact Hu.
Qed.
Lemma c48_quorum w tr x id p p' : mreach w tr -> few_proposals (w_m w) -> let s := w_m w in
  get_proposal s id = Ok p -> get_proposal (w_m (wstep w x)) id = Ok p' -> pr_quorum p' <> pr_quorum p ->
  exists i ts n t q, x = MAnswer i ts (ABytes (Some n) t) /\ w_pend w !! i = Some q /\ pd_kind q = KStart id /\
    pr_quorum p' = Some (n * m_floor s / 10000) /\ n * m_floor s / 10000 <= n.
Proof.
  intros Hr Hf s Hp Hp' Hne. subst s. pose proof (KI_reach _ _ Hr Hf) as HK. apply get_mpip_Ok in Hp, Hp'.
  destruct (pmove_step w x id p HK Hf Hp) as (p1 & Hp1 & Hm). assert (p1 = p') as -> by congruence.
  destruct Hm as [|c o p' _ Hc|i ts q n t Ex Hi Hk _ _].
  - contradiction.
  - exfalso. apply Hne. destruct Hc; reflexivity.
  - exists i, ts, n, t, q. split; [exact Ex|]. split; [exact Hi|]. split; [exact Hk|]. split; [reflexivity|].
    pose proof (c48_floor _ _ Hr) as Hfl. apply N.div_le_upper_bound; [discriminate|]. nia.
Qed.

(** ** Invariants along histories with non-decreasing time *)
Lemma wrun_timed (P : N -> world -> Prop) (Q : world -> mevent -> Prop) tr : forall T w,
  (forall T w x, P T w -> Q w x -> T <= event_ts x -> P (event_ts x) (wstep w x)) ->
  (forall T T' w, T <= T' -> P T w -> P T' w) ->
  P T w -> walong Q w tr -> Sorted N.le (T :: map event_ts tr) ->
  forall T', Forall (fun t => t <= T') (T :: map event_ts tr) -> P T' (wrun w tr).
Proof.
  induction tr as [|x tr IH]; intros T w Hs Hm Hw HQ Hso T' Hall.
  - cbn. inversion Hall; subst. eapply Hm; eassumption.
  - destruct HQ as [Hq HQ]. cbn [map] in *. inversion Hso as [|? ? Hso' Hh]; subst. inversion Hh; subst.
    inversion Hall; subst. cbn [wrun fold_left]. eapply (IH (event_ts x)); try eassumption.
    eapply Hs; eassumption.
Qed.
Lemma walong_app Q w tr1 tr2 : walong Q w (tr1 ++ tr2) <-> walong Q w tr1 /\ walong Q (wrun w tr1) tr2.
Proof.
  revert w. induction tr1 as [|x tr1 IH]; intros w; cbn [app walong wrun fold_left]; [tauto|].
  rewrite IH. unfold wrun. tauto.
Qed.

(** the window of a proposal at time [T] (nanoseconds) *)
Definition PT (T : N) (p : mpip) : Prop :=
  (pr_draft p = true -> pr_start p = None /\ pr_end p = None /\ pr_quorum p = None /\ pr_executed p = false) /\
  (pr_draft p = false -> exists d e q, pr_start p = Some d /\ pr_end p = Some e /\ pr_quorum p = Some q /\
     d <= e /\ d <= T / 1000000).
Definition LI (T : N) (w : world) : Prop := forall id p, om_get (m_proposals (w_m w)) id = Some p -> PT T p.

Lemma PT_mono T T' p : T <= T' -> PT T p -> PT T' p.
Proof.
  intros HT [H1 H2]. split; [exact H1|]. intros E. destruct (H2 E) as (d & e & q & A & B & C & D & F).
  exists d, e, q. repeat (split; [assumption|]). etransitivity; [exact F|]. apply N.div_le_mono; [discriminate|exact HT].
Qed.
Lemma PT_call T c s o id p p' : pcall c s o id p p' -> PT T p -> PT T p'.
Proof.
  intros Hc [H1 H2]. destruct Hc as [id p _ Ha|id ct p _ Ha|id p _ Hv _ _]; split; cbn; auto.
  intros E. apply on_voting_flags in Hv as (d & e & _ & _ & _ & E' & _). congruence.
Qed.
Lemma pevol_Some w x id p :
  om_get (m_proposals (w_m (wstep w x))) id = Some p ->
  om_get (m_proposals (w_m w)) id = Some p \/
  (exists c o p0, x = MCall c o /\ pcall c (w_m w) o id p0 p /\ om_get (m_proposals (w_m w)) id = Some p0) \/
  (exists i ts q n t p0, x = MAnswer i ts (ABytes (Some n) t) /\ w_pend w !! i = Some q /\ pd_kind q = KStart id /\
     om_get (m_proposals (w_m w)) id = Some p0 /\ p = started (w_m w) (ts / 1000000) n p0) \/
  (exists i ts q ct t l, x = MAnswer i ts (ABytes t (Some l)) /\ w_pend w !! i = Some q /\ pd_kind q = KCreate ct /\
     m_min_vp (w_m w) <= locked_sum l /\ id = next_id (w_m w) /\
     p = mkMpip id ct (pd_signer q) None None true false false None).
Proof.
  intros Hp. pose proof (pevol_step w x id) as He. rewrite Hp in He. clear Hp.
  remember (om_get (m_proposals (w_m w)) id) as o0. remember (Some p) as o1. clear Heqo0.
  destruct He as [o|c o p0 p' Ex Hc|i ts q n t p0 Ex Hi Hk Hb Hn|i ts q ct t l o Ex Hi Hk Hm Eid].
  - left. reflexivity.
  - right. left. injection Heqo1 as ->. exists c, o, p0. auto.
  - right. right. left. injection Heqo1 as <-. exists i, ts, q, n, t, p0. auto 10.
  - right. right. right. injection Heqo1 as <-. exists i, ts, q, ct, t, l. auto 10.
Qed.
Lemma LI_step T w x : LI T w -> T <= event_ts x -> LI (event_ts x) (wstep w x).
Proof.
  intros HL HT id p Hp.
  destruct (pevol_Some w x id p Hp) as [E|[(c & o & p0 & Ex & Hc & E)|[(i & ts & q & n & t & p0 & Ex & Hi & Hk & E & ->)|(i & ts & q & ct & t & l & Ex & Hi & Hk & Hm & Eid & ->)]]].
  - eapply PT_mono; [exact HT|]. apply (HL id). exact E.
  - eapply PT_call; [exact Hc|]. eapply PT_mono; [exact HT|]. apply (HL id). exact E.
  - subst x. cbn [event_ts]. split; [discriminate|]. intros _. do 3 eexists. do 3 (split; [reflexivity|]). lia.
  - split; [auto|discriminate].
Qed.
Lemma mtimed_zero tr : mtimed tr -> Sorted N.le (0 :: map event_ts tr).
Proof. intros H. constructor; [exact H|]. destruct tr; constructor. apply N.le_0_l. Qed.
Lemma LI_reach a s0 tr T : mpip_new a = Ok s0 -> mtimed tr -> Forall (fun x => event_ts x <= T) tr -> LI T (wrun (winit s0) tr).
Proof.
  intros H0 Ht Hall. apply (wrun_timed LI (fun _ _ => True) tr 0).
  - intros T' w x HL _ HT. apply (LI_step T'); assumption.
  - intros T1 T2 w HT HL id p Hp. eapply PT_mono; [exact HT|]. apply (HL id p Hp).
  - unfold mpip_new in H0. apply bind_Ok in H0 as (u & _ & H0). injection H0 as <-. intros id p Hp. discriminate Hp.
  - apply walong_True.
  - apply mtimed_zero. exact Ht.
  - constructor; [apply N.le_0_l|]. apply Forall_map. exact Hall.
Qed.

(** ** C50 *)
Lemma c50 a s0 tr id now : mpip_new a = Ok s0 -> mtimed tr -> Forall (fun x => event_ts x / 1000000 <= now) tr ->
  get_proposal_state now (w_m (wrun (winit s0) tr)) id <> Ok StActive.
Proof.
  intros H0 Ht Hall H. set (s := w_m (wrun (winit s0) tr)) in *.
  assert (HL : LI (now * 1000000 + 999999) (wrun (winit s0) tr)).
  { apply LI_reach with a; [exact H0|exact Ht|]. eapply List.Forall_impl; [|exact Hall]. intros x Hx. cbn in Hx.
    pose proof (N.div_mod' (event_ts x) 1000000). pose proof (N.mod_lt (event_ts x) 1000000 ltac:(discriminate)). lia. }
  unfold get_proposal_state in H. apply bind_Ok in H as (p & Hp & H). apply get_mpip_Ok in Hp. apply HL in Hp as [_ HP].
  replace ((now * 1000000 + 999999) / 1000000) with now in HP.
  2: { symmetry. rewrite N.add_comm, N.div_add by discriminate. reflexivity. }
  destruct (pr_executed p) eqn:E1; [discriminate|]. destruct (pr_canceled p) eqn:E2; [discriminate|]. destruct (pr_draft p) eqn:E3; [discriminate|].
  destruct (HP eq_refl) as (d & e & q & Ed & Ee & _ & Hde & Hdn). unfold is_on_voting in H. rewrite Ed, (proj2 (N.leb_le _ _) Hdn), Ee in H.
  cbn [expect mbind res_bind] in H. rewrite E1, E2, E3 in H. cbn [negb] in H. rewrite !andb_true_r in H.
  destruct (N.leb_spec now e) as [Hx|Hx]; [discriminate|]. unfold is_active in H. rewrite Ed in H.
  destruct (N.leb_spec now d) as [Hy|Hy]; [lia|]. cbn [andb] in H. apply bind_Ok in H as (b & _ & H).
  destruct (b && _)%bool; discriminate.
Qed.

(** ** C49 *)
Definition skey (p : pending) : option N := match pd_kind p with KStart id => Some id | _ => None end.
Definition starts (w : world) : list N := omap skey (w_pend w).
Lemma in_starts_iff w id : start_in_flight w id <-> id ∈ starts w.
Proof.
  unfold start_in_flight, starts. rewrite elem_of_list_omap. split.
  - intros (p & Hin & E). exists p. split; [apply elem_of_list_In; exact Hin|]. unfold skey. rewrite E. reflexivity.
  - intros (p & Hin & E). unfold skey in E. destruct (pd_kind p) as [id'| |] eqn:Ek; try discriminate.
    injection E as ->. exists p. split; [apply elem_of_list_In; exact Hin|exact Ek].
Qed.
Record WI (T : N) (w : world) : Prop := {
  wi_li : LI T w;
  wi_nd : NoDup (starts w);
  wi_none : forall id p, id ∈ starts w -> om_get (m_proposals (w_m w)) id = Some p -> pr_start p = None;
}.
Lemma pcall_window c s o id p p' : pcall c s o id p p' -> pr_start p' = pr_start p /\ pr_end p' = pr_end p /\ pr_quorum p' = pr_quorum p.
Proof. intros H. destruct H; repeat split; reflexivity. Qed.

Lemma WI_step T w x : WI T w -> no_double_start w x -> T <= event_ts x -> WI (event_ts x) (wstep w x).
Proof.
  intros [HL Hnd Hn] Hd HT. pose proof (LI_step T w x HL HT) as HL'.
  assert (Hkeep : forall id p, om_get (m_proposals (w_m (wstep w x))) id = Some p -> id ∈ starts w ->
     (forall i ts a, x = MAnswer i ts a -> forall q, w_pend w !! i = Some q -> pd_kind q <> KStart id) -> pr_start p = None).
  { intros id p Hp Hin Hx.
    destruct (pevol_Some w x id p Hp) as [E|[(c & o & p0 & Ex & Hc & E)|[(i & ts & q & n & t & p0 & Ex & Hi & Hk & E & ->)|(i & ts & q & ct & t & l & Ex & Hi & Hk & Hm & Eid & ->)]]].
    - apply (Hn id); [exact Hin|exact E].
    - apply pcall_window in Hc as [-> _]. apply (Hn id); [exact Hin|exact E].
    - exfalso. exact (Hx _ _ _ Ex _ Hi Hk).
    - reflexivity. }
  destruct (wstep_case w x) as [x|c o s' out Hc Ho|c o s' q Hc|i ts a q s' Hi Hc|i ts a q m Hi Hc]; split; try exact HL'.
  - exact Hnd.
  - exact Hn.
  - exact Hnd.
  - intros id p Hin Hp. apply (Hkeep id p Hp Hin). intros i ts a Ex. discriminate.
  - unfold starts. cbn [w_pend]. rewrite omap_app. cbn. pose proof (mcall_asks _ _ _ _ _ Hc) as (_ & _ & _ & Hk).
    unfold skey at 2. destruct (pd_kind q) as [id| |]; try (rewrite app_nil_r; exact Hnd).
    destruct Hk as (-> & _). cbn in Hd. destruct Hd as [Hd _]. rewrite in_starts_iff in Hd. apply NoDup_app. split; [exact Hnd|]. split.
    + intros k Hk Hk'. apply elem_of_list_singleton in Hk' as ->. exact (Hd Hk).
    + apply NoDup_singleton.
  - intros id p Hin Hp. unfold starts in Hin. cbn [w_pend w_m] in *. rewrite omap_app in Hin. apply elem_of_app in Hin as [Hin|Hin].
    { apply (Hkeep id p Hp Hin). intros i ts a Ex. discriminate. }
    cbn in Hin. pose proof (mcall_asks _ _ _ _ _ Hc) as (-> & _ & _ & Hk). unfold skey in Hin.
    destruct (pd_kind q) as [id'| |]; try (inversion Hin; fail). apply elem_of_list_singleton in Hin as ->.
    destruct Hk as (-> & _ & _ & p1 & Hp1 & _ & Ha). assert (p1 = p) as -> by (apply get_mpip_Ok in Hp1; congruence).
    apply active_draft_flags in Ha as (_ & _ & Ha). cbn in Hd. destruct Hd as [_ Hd].
    destruct (pr_start p) as [d|] eqn:Es; [|reflexivity]. exfalso. specialize (Ha d eq_refl). specialize (Hd p d Hp1 Es).
    destruct (HL _ _ Hp) as [P1 P2]. destruct (pr_draft p); [destruct (P1 eq_refl) as [E _]; congruence|].
    destruct (P2 eq_refl) as (d' & e & qq & E & _ & _ & _ & Hle). assert (d' = d) as -> by congruence.
    cbn [event_ts] in HT. unfold now_ms in *. pose proof (N.div_le_mono T (c_ts c) 1000000 ltac:(discriminate) HT). lia.
  - assert (Hp : starts w ≡ₚ option_list (skey q) ++ starts (mkWorld s' (delete i (w_pend w)))).
    { unfold starts. cbn [w_pend]. rewrite (delete_Permutation _ _ _ Hi) at 1. cbn. destruct (skey q); reflexivity. }
    rewrite Hp in Hnd. apply NoDup_app in Hnd. apply Hnd.
  - assert (Hp : starts w ≡ₚ option_list (skey q) ++ starts (mkWorld s' (delete i (w_pend w)))).
    { unfold starts. cbn [w_pend]. rewrite (delete_Permutation _ _ _ Hi) at 1. cbn. destruct (skey q); reflexivity. }
    intros id p Hin Hpp. apply (Hkeep id p Hpp).
    + rewrite Hp. apply elem_of_app. right. exact Hin.
    + intros i0 ts0 a0 Ex q0 Hq0 Hk0. injection Ex as <- <- <-. assert (q0 = q) as -> by congruence.
      rewrite Hp in Hnd. apply NoDup_app in Hnd as (_ & Hd' & _). apply (Hd' id); [|exact Hin].
      unfold skey. rewrite Hk0. left.
  - assert (Hp : starts w ≡ₚ option_list (skey q) ++ starts (mkWorld (w_m w) (delete i (w_pend w)))).
    { unfold starts. cbn [w_pend]. rewrite (delete_Permutation _ _ _ Hi) at 1. cbn. destruct (skey q); reflexivity. }
    rewrite Hp in Hnd. apply NoDup_app in Hnd. apply Hnd.
  - assert (Hp : starts w ≡ₚ option_list (skey q) ++ starts (mkWorld (w_m w) (delete i (w_pend w)))).
    { unfold starts. cbn [w_pend]. rewrite (delete_Permutation _ _ _ Hi) at 1. cbn. destruct (skey q); reflexivity. }
    intros id p Hin Hpp. apply (Hn id p); [|exact Hpp]. rewrite Hp. apply elem_of_app. right. exact Hin.
Qed.
Lemma WI_reach a s0 tr T : mpip_new a = Ok s0 -> mtimed tr -> walong no_double_start (winit s0) tr ->
  Forall (fun x => event_ts x <= T) tr -> WI T (wrun (winit s0) tr).
Proof.
  intros H0 Ht HQ Hall. apply (wrun_timed WI no_double_start tr 0).
  - intros T' w x HL Hd HT. apply (WI_step T'); assumption.
  - intros T1 T2 w HT [HL H2 H3]. split; [|exact H2|exact H3]. intros id p Hp. eapply PT_mono; [exact HT|]. apply (HL id p Hp).
  - unfold mpip_new in H0. apply bind_Ok in H0 as (u & _ & H0). injection H0 as <-. split.
    + intros id p Hp. discriminate Hp.
    + constructor.
    + intros id p Hin. inversion Hin.
  - exact HQ.
  - apply mtimed_zero. exact Ht.
  - constructor; [apply N.le_0_l|]. apply Forall_map. exact Hall.
Qed.
Lemma bound_exists (tr : list mevent) : exists T, Forall (fun x => event_ts x <= T) tr.
Proof.
  induction tr as [|x tr (T & IH)]; [exists 0; constructor|]. exists (N.max T (event_ts x)). constructor; [lia|].
  eapply List.Forall_impl; [|exact IH]. cbn. intros y Hy. lia.
Qed.
Lemma mtimed_prefix tr1 tr2 : mtimed (tr1 ++ tr2) -> mtimed tr1.
Proof.
  unfold mtimed. induction tr1 as [|x tr1 IH]; [constructor|]. cbn. intros H. inversion H as [|? ? H1 H2]; subst. constructor; [apply IH; exact H1|].
  destruct tr1; [constructor|]. cbn in *. inversion H2; subst. constructor. assumption.
Qed.

Lemma c49 a s0 tr tr' id p d :
  mpip_new a = Ok s0 -> mtimed (tr ++ tr') -> walong no_double_start (winit s0) (tr ++ tr') ->
  few_proposals (w_m (wrun (winit s0) (tr ++ tr'))) ->
  get_proposal (w_m (wrun (winit s0) tr)) id = Ok p -> pr_start p = Some d ->
  exists p', get_proposal (w_m (wrun (winit s0) (tr ++ tr'))) id = Ok p' /\
    pr_start p' = Some d /\ pr_end p' = pr_end p /\ pr_quorum p' = pr_quorum p.
Proof.
  intros H0 Ht HQ Hf Hp Hd. induction tr' as [|x tr' IH] using rev_ind.
  { rewrite app_nil_r. exists p. auto. }
  rewrite app_assoc in *. rewrite wrun_snoc in Hf. pose proof (few_step _ _ Hf) as Hf'.
  pose proof (mtimed_prefix _ _ Ht) as Ht'. pose proof HQ as HQ'. apply walong_app in HQ' as [HQ' _].
  destruct (IH Ht' HQ' Hf') as (p1 & Hp1 & E1 & E2 & E3). rewrite wrun_snoc.
  set (w := wrun (winit s0) (tr ++ tr')) in *.
  assert (HK : KI (w_m w)) by (apply (KI_reach _ (tr ++ tr')); [exists a, s0; auto|exact Hf']).
  pose proof Hp1 as Hp1'. apply get_mpip_Ok in Hp1'. destruct (pmove_step w x id p1 HK Hf' Hp1') as (p' & Hp' & Hm).
  exists p'. split; [apply get_mpip_Ok; exact Hp'|]. destruct Hm as [|c o p' _ Hc|i ts q n t Ex Hi Hk _ _].
  - auto.
  - apply pcall_window in Hc as (-> & -> & ->). auto.
  - exfalso. destruct (bound_exists (tr ++ tr')) as (T & HT). pose proof (WI_reach _ _ _ T H0 Ht' HQ' HT) as HW. fold w in HW.
    assert (pr_start p1 = None); [|congruence]. apply (wi_none _ _ HW id); [|exact Hp1']. apply in_starts_iff. exists q.
    split; [|exact Hk]. apply elem_of_list_In. eapply elem_of_list_lookup_2. exact Hi.
Qed.

(** ** C51 *)
Lemma c51 w tr x id p p' : mreach w tr -> few_proposals (w_m w) ->
  get_proposal (w_m w) id = Ok p -> get_proposal (w_m (wstep w x)) id = Ok p' -> pr_content p' <> pr_content p ->
  exists c ct, x = MCall c (UpdateProposal id ct) /\ c_signer c = pr_creator p /\ pr_content p' = ct /\
    pr_canceled p = false /\ pr_executed p = false /\ (forall d, pr_start p = Some d -> now_ms c <= d).
Proof.
  intros Hr Hf Hp Hp' Hne. pose proof (KI_reach _ _ Hr Hf) as HK. apply get_mpip_Ok in Hp, Hp'.
  destruct (pmove_step w x id p HK Hf Hp) as (p1 & Hp1 & Hm). assert (p1 = p') as -> by congruence.
  destruct Hm as [|c o p' Ex Hc|i ts q n t Ex Hi Hk _ _].
  - contradiction.
  - destruct Hc as [id p _ Ha|id ct p Hs Ha|id p _ Hv _ _]; try (contradiction Hne; reflexivity).
    apply active_draft_flags in Ha as (E1 & E2 & E3). exists c, ct. auto 10.
  - contradiction Hne. reflexivity.
Qed.

(** ** C52 *)
Lemma c52 a0 s0 tr x id p :
  mpip_new a0 = Ok s0 -> let w := wrun (winit s0) tr in few_proposals (w_m w) ->
  (forall q, get_proposal (w_m w) id <> Ok q) -> get_proposal (w_m (wstep w x)) id = Ok p ->
  exists i ts t l q ct tr1 c tr2, x = MAnswer i ts (ABytes t (Some l)) /\ w_pend w !! i = Some q /\
    m_min_vp (w_m w) <= locked_sum l /\ id = N.of_nat (n_proposals (w_m w)) /\
    p = mkMpip id ct (c_signer c) None None true false false None /\
    tr = tr1 ++ MCall c (CreateProposal ct) :: tr2 /\
    pd_ask q = AskPositions (c_pred c) /\ pd_contract q = m_meta_vote (w_m (wrun (winit s0) tr1)) /\
    m_open (w_m (wrun (winit s0) tr1)) = true /\ m_storage (w_m (wrun (winit s0) tr1)) <= c_deposit c.
Proof.
  intros H0 w Hf Hno Hp. apply get_mpip_Ok in Hp.
  assert (Hnone : om_get (m_proposals (w_m w)) id = None).
  { destruct (om_get (m_proposals (w_m w)) id) as [q|] eqn:E; [|reflexivity]. exfalso. apply (Hno q). apply get_mpip_Ok. exact E. }
  destruct (pevol_Some w x id p Hp) as [E|[(c & o & p0 & Ex & Hc & E)|[(i & ts & q & n & t & p0 & Ex & Hi & Hk & E & _)|(i & ts & q & ct & t & l & Ex & Hi & Hk & Hm & Eid & ->)]]]; try congruence.
  pose proof (elem_of_list_lookup_2 _ _ _ Hi) as Hin. apply elem_of_list_In in Hin.
  destruct (pend_origin (winit s0) tr q eq_refl Hin) as (tr1 & c & o' & tr2 & E & Hc).
  pose proof (mcall_asks _ _ _ _ _ Hc) as (_ & Es & Ect & Hx). rewrite Hk in Hx. destruct Hx as (-> & Ea & Eo & Ed).
  exists i, ts, t, l, q, ct, tr1, c, tr2. rewrite <- Es.
  split; [exact Ex|]. split; [exact Hi|]. split; [exact Hm|]. split; [rewrite Eid; apply next_few; exact Hf|].
  split; [reflexivity|]. split; [exact E|]. auto.
Qed.
