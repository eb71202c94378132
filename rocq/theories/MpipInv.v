(** MpipInv.v -- case analyses and invariants of the proposal contract. *)

From Verif Require Export MpipSpec.

Lemma process_inv c s id s' out :
  process_voting_status c s id = Ok (s', out) ->
  out = ONone /\ (m_admin s = c_signer c \/ m_operator s = c_signer c) /\
  (s' = s \/
   exists p, get_mpip s id = Ok p /\ is_on_voting (now_ms c) p = Ok true /\ pr_end p = Some (now_ms c) /\
     is_quorum_reached s id = Ok true /\
     s' = s <| m_proposals := om_set (m_proposals s) id (p <| pr_executed := true |>) |>).
Proof.
  intros H. unfold process_voting_status in H. apply bind_Ok in H as (u & _ & H).
  apply bind_Ok in H as (u1 & Ha & H). unfold assert_only_operator in Ha. apply require_Ok, orb_true_iff in Ha.
  rewrite !bool_decide_eq_true in Ha.
  apply bind_Ok in H as (p & Hp & H). apply bind_Ok in H as (b & Hb & H).
  destruct b; [|injection H as <- <-; auto].
  apply bind_Ok in H as (e & He & H). apply expect_Ok in He.
  destruct (N.leb_spec e (now_ms c)); [|injection H as <- <-; auto].
  apply bind_Ok in H as (q & Hq & H). destruct q; injection H as <- <-; [|auto].
  split; [reflexivity|]. split; [exact Ha|]. right. exists p. split; [exact Hp|]. split; [exact Hb|]. split; [|auto].
  assert (e = now_ms c) as <-; [|exact He]. unfold is_on_voting in Hb. destruct (pr_start p); [|discriminate].
  destruct (_ <=? _); [|discriminate]. rewrite He in Hb. cbn [expect mbind res_bind] in Hb. injection Hb as Hb.
  destruct (N.leb_spec (now_ms c) e); [lia|discriminate Hb].
Qed.

Lemma mcall_votes c s o s' out :
  mcall c s o = Ok (s', out) -> (forall id, o <> RemoveVoteProposal id) ->
  m_votes s' = m_votes s /\ m_voters s' = m_voters s.
Proof.
  intros H Hn. destruct o; cbn [mcall] in H; try (exfalso; eapply Hn; reflexivity);
    unfold update_open, update_operator_role, update_admin_role, pay_to_account, update_meta_vote_address,
      update_voting_period, update_min_meta, update_min_vp, update_storage, update_quorum_floor,
      start_voting_period, create_proposal, cancel_proposal, update_proposal, vote_proposal in H;
    try (apply process_inv in H as (_ & _ & [->|(p & _ & _ & _ & _ & ->)]); split; reflexivity);
    rinv; split; reflexivity.
Qed.

Lemma user_power_spec a vp :
  user_power_from_promise a = Ok vp ->
  exists t l, a = ABytes t (Some l) /\ vp = locked_sum l /\ vp < 2 ^ 128.
Proof.
  unfold user_power_from_promise. destruct a as [|t l]; [discriminate|]. intros H.
  apply bind_Ok in H as (l1 & Hl & H). apply expect_Ok in Hl as ->. apply bind_Ok in H as (u & _ & H).
  exists t, l1. split; [reflexivity|]. unfold locked_sum.
  enough (forall acc, acc < 2 ^ 128 -> foldM (fun r j => if jp_is_locked j then add128 r (jp_vp j) else Ok r) l1 acc = Ok vp ->
     vp = acc + sum_by (fun j => if jp_is_locked j then jp_vp j else 0) l1 /\ vp < 2 ^ 128) as Hg.
  { apply Hg in H; [|reflexivity]. rewrite N.add_0_l in H. exact H. }
  clear H. induction l1 as [|j l1 IH]; intros acc Ha H; cbn [foldM] in H.
  - injection H as <-. rewrite sum_by_nil. lia.
  - rewrite sum_by_cons. destruct (jp_is_locked j).
    + destruct (add128 acc (jp_vp j)) as [n|] eqn:E; [|discriminate]. apply add128_Ok in E as [-> Hb].
      apply IH in H; [|exact Hb]. lia.
    + apply IH in H; [|exact Ha]. lia.
Qed.
Lemma user_power_ok t l :
  locked_sum l < 2 ^ 128 -> Forall (fun j => jp_vp j < 2 ^ 128) l ->
  user_power_from_promise (ABytes t (Some l)) = Ok (locked_sum l).
Proof.
  intros Hs Hf. unfold user_power_from_promise. cbn [expect mbind res_bind].
  replace (forallb (fun j => jp_vp j <? U128_SIZE) l) with true.
  2: { symmetry. apply forallb_forall. intros j Hj. apply N.ltb_lt. rewrite List.Forall_forall in Hf. apply Hf. exact Hj. }
  cbn [require mbind res_bind]. unfold locked_sum in *.
  enough (forall acc, acc + sum_by (fun j => if jp_is_locked j then jp_vp j else 0) l < 2 ^ 128 ->
    foldM (fun r j => if jp_is_locked j then add128 r (jp_vp j) else Ok r) l acc
    = Ok (acc + sum_by (fun j => if jp_is_locked j then jp_vp j else 0) l)) as Hg.
  { rewrite Hg; [rewrite N.add_0_l; reflexivity|rewrite N.add_0_l; exact Hs]. }
  clear Hs Hf. induction l as [|j l IH]; intros acc Ha; cbn [foldM].
  - rewrite sum_by_nil. rewrite N.add_0_r. reflexivity.
  - rewrite sum_by_cons in *. destruct (jp_is_locked j).
    + unfold add128. destruct (N.ltb_spec (acc + jp_vp j) U128_SIZE) as [_|Hx]; [|change U128_SIZE with (2 ^ 128) in Hx; lia].
      rewrite IH by lia. f_equal. lia.
    + rewrite IH by lia. f_equal.
Qed.

Definition tally_of (v : pvote) (t : vote_type) : N :=
  match t with VFor => pv_for v | VAgainst => pv_against v | VAbstain => pv_abstain v end.
Lemma tally_eq s id t : tally s id t = tally_of (get_pvote s id) t.
Proof. destruct t; reflexivity. Qed.
Lemma listed_eq s id : listed s id = pv_voted (get_pvote s id).
Proof. reflexivity. Qed.

Lemma add_tally_Ok v t n v' :
  add_tally v t n = Ok v' ->
  pv_voted v' = pv_voted v /\ tally_of v t + n < 2 ^ 128 /\
  forall t', tally_of v' t' = tally_of v t' + (if decide (t = t') then n else 0).
Proof.
  intros H. destruct t; cbn [add_tally] in H; apply bind_Ok in H as (x & Hx & H); apply add128_Ok in Hx as [-> Hx];
    injection H as <-; (split; [reflexivity|split; [exact Hx|]]); intros []; case_decide; try congruence; cbn -[N.add N.sub]; lia.
Qed.
Lemma sub_tally_Ok v t n v' :
  sub_tally v t n = Ok v' ->
  pv_voted v' = pv_voted v /\ n <= tally_of v t /\
  forall t', tally_of v' t' = tally_of v t' - (if decide (t = t') then n else 0).
Proof.
  intros H. destruct t; cbn [sub_tally] in H; apply bind_Ok in H as (x & Hx & H); apply sub128_Ok in Hx as [-> Hx];
    injection H as <-; (split; [reflexivity|split; [exact Hx|]]); intros []; case_decide; try congruence; cbn -[N.add N.sub]; lia.
Qed.
Lemma sub_tally_ok v t n : n <= tally_of v t -> exists v', sub_tally v t n = Ok v'.
Proof.
  intros H. destruct t; cbn [tally_of] in H; cbn [sub_tally]; unfold sub128;
    match goal with |- context [if ?a <=? ?b then _ else _] => destruct (N.leb_spec a b); [|lia] end;
    eexists; reflexivity.
Qed.

(** the vote records after a counted vote *)
Lemma vote_cb_inv s id v vt memo a s' :
  vote_callback s id v vt memo a = Ok s' ->
  exists t l pv1, a = ABytes t (Some l) /\ 0 < locked_sum l /\
    let vote := mkMvote id vt (locked_sum l) memo in
    pv_voted pv1 = om_set (pv_voted (get_pvote s id)) v vote /\
    tally_of (get_pvote s id) vt + locked_sum l < 2 ^ 128 /\
    (forall t', tally_of pv1 t' = tally_of (get_pvote s id) t' + (if decide (vt = t') then locked_sum l else 0)) /\
    s' = s <| m_votes := om_set (m_votes s) id pv1 |>
           <| m_voters := om_set (m_voters s) v (om_set (get_mvoter s v) id vote) |>.
Proof.
  intros H. unfold vote_callback in H. apply bind_Ok in H as (vp & Hv & H).
  apply user_power_spec in Hv as (t & l & -> & -> & Hlt).
  apply bind_Ok in H as (u & Hp & H). apply require_Ok, N.ltb_lt in Hp.
  apply bind_Ok in H as (pv1 & Ht & H). injection H as <-. apply add_tally_Ok in Ht as (E1 & Hb & E2).
  exists t, l, pv1. split; [reflexivity|]. split; [exact Hp|]. split; [exact E1|]. split.
  - destruct vt; exact Hb.
  - split; [|reflexivity]. intros t'. rewrite E2. destruct t'; reflexivity.
Qed.

Lemma on_voting_spec now p b :
  is_on_voting now p = Ok b ->
  b = true <-> (exists d e, pr_start p = Some d /\ pr_end p = Some e /\ d <= now <= e) /\
    pr_draft p = false /\ pr_canceled p = false /\ pr_executed p = false.
Proof.
  unfold is_on_voting. destruct (pr_start p) as [d|].
  2: { intros [= <-]. split; [discriminate|]. intros ((d & e & H & _) & _). discriminate H. }
  destruct (N.leb_spec d now) as [Hd|Hd].
  - intros H. apply bind_Ok in H as (e & He & H). apply expect_Ok in He. injection H as <-. rewrite He. split.
    + intros H. apply andb_prop in H as [H H4]. apply andb_prop in H as [H H3]. apply andb_prop in H as [H1 H2].
      apply N.leb_le in H1. apply negb_true_iff in H2, H3, H4. split; [|auto]. exists d, e. auto.
    + intros ((d1 & e1 & [= <-] & [= <-] & Hb) & -> & -> & ->).
      destruct (N.leb_spec now e); [reflexivity|lia].
  - intros [= <-]. split; [discriminate|]. intros ((d1 & e1 & [= <-] & _ & Hb) & _). lia.
Qed.

Lemma remove_inv c s id s' out :
  remove_vote_proposal c s id = Ok (s', out) ->
  exists p u pv1, c_deposit c = 0 /\ get_mpip s id = Ok p /\ is_on_voting (now_ms c) p = Ok true /\
    internal_has_voted s id (c_pred c) = true /\ om_get (pv_voted (get_pvote s id)) (c_pred c) = Some u /\
    pv_voted pv1 = om_remove (pv_voted (get_pvote s id)) (c_pred c) /\
    vt_power u <= tally_of (get_pvote s id) (vt_type u) /\
    (forall t', tally_of pv1 t' = tally_of (get_pvote s id) t' - (if decide (vt_type u = t') then vt_power u else 0)) /\
    out = ONone /\
    s' = s <| m_votes := om_set (m_votes s) id pv1 |>
           <| m_voters := match om_remove (get_mvoter s (c_pred c)) id with
                 | [] => om_remove (m_voters s) (c_pred c)
                 | _ => om_set (m_voters s) (c_pred c) (om_remove (get_mvoter s (c_pred c)) id)
                 end |>.
Proof.
  intros H. unfold remove_vote_proposal in H. apply bind_Ok in H as (u1 & Hd & H).
  unfold non_payable in Hd. apply require_Ok, N.eqb_eq in Hd.
  apply bind_Ok in H as (u2 & Hv & H). unfold assert_on_voting in Hv. apply bind_Ok in Hv as (p & Hp & Hv).
  apply bind_Ok in Hv as (b & Hb & Hv). apply require_Ok in Hv as ->.
  apply bind_Ok in H as (u3 & Hh & H). apply require_Ok in Hh.
  apply bind_Ok in H as (u & Hu & H). apply expect_Ok in Hu.
  apply bind_Ok in H as (v1 & Ht & H). injection H as <- <-. apply sub_tally_Ok in Ht as (E1 & Hle & E2).
  exists p, u, (v1 <| pv_voted := om_remove (pv_voted v1) (c_pred c) |>).
  split; [exact Hd|]. split; [exact Hp|]. split; [exact Hb|]. split; [exact Hh|]. split; [exact Hu|].
  split; [cbn; rewrite E1; reflexivity|]. split; [exact Hle|]. split; [|split; reflexivity].
  intros t'. rewrite <- E2. destruct t'; reflexivity.
Qed.

(** ** Invariant on the vote records *)
Record VI (s : mstate) : Prop := {
  vi_nd_votes : NoDup (m_votes s).*1;
  vi_nd_voters : NoDup (m_voters s).*1;
  vi_nd_pv : forall id, NoDup (pv_voted (get_pvote s id)).*1;
  vi_nd_mv : forall v, NoDup (get_mvoter s v).*1;
  vi_agree : forall id v, om_get (pv_voted (get_pvote s id)) v = om_get (get_mvoter s v) id;
  vi_nonempty : forall v m, om_get (m_voters s) v = Some m -> m <> [];
  vi_rec : forall id v u, om_get (get_mvoter s v) id = Some u -> vt_mpip u = id /\ 0 < vt_power u;
  vi_tally : forall id t, recorded s id t <= tally s id t;
}.

Lemma VI_ext s s' : m_votes s' = m_votes s -> m_voters s' = m_voters s -> VI s -> VI s'.
Proof.
  intros E1 E2 H. assert (Ep : forall id, get_pvote s' id = get_pvote s id) by (intros id; unfold get_pvote; rewrite E1; reflexivity).
  assert (Em : forall v, get_mvoter s' v = get_mvoter s v) by (intros v; unfold get_mvoter; rewrite E2; reflexivity).
  destruct H. split.
  - rewrite E1. assumption.
  - rewrite E2. assumption.
  - intros id. rewrite Ep. auto.
  - intros v. rewrite Em. auto.
  - intros id v. rewrite Ep, Em. auto.
  - intros v m. rewrite E2. exact (vi_nonempty0 v m).
  - intros id v u. rewrite Em. exact (vi_rec0 id v u).
  - intros id t. unfold recorded. rewrite listed_eq, tally_eq, Ep. specialize (vi_tally0 id t). unfold recorded in vi_tally0.
    rewrite listed_eq, tally_eq in vi_tally0. exact vi_tally0.
Qed.

Lemma VI_init a s0 : mpip_new a = Ok s0 -> VI s0.
Proof.
  intros H. unfold mpip_new in H. apply bind_Ok in H as (u & _ & H). injection H as <-.
  split; cbn; try (intros; constructor); try discriminate; try reflexivity.
  intros id t. unfold recorded, tally, listed, get_proposal_votes, get_pvote. cbn. rewrite sum_by_nil. destruct t; lia.
Qed.

Definition rec_of (t : vote_type) (m : omap_t string mvote) : N :=
  sum_by (fun j : vote_json => if decide (vt_type j.2 = t) then vt_power j.2 else 0) m.
Lemma recorded_eq s id t : recorded s id t = rec_of t (pv_voted (get_pvote s id)).
Proof. reflexivity. Qed.
Definition pow_of (t : vote_type) (u : mvote) : N := if decide (vt_type u = t) then vt_power u else 0.
Lemma rec_set_new t m v u : om_get m v = None -> rec_of t (om_set m v u) = rec_of t m + pow_of t u.
Proof. intros H. unfold rec_of. exact (om_sum_set_new (fun _ u => pow_of t u) m v u H). Qed.
Lemma rec_set_old t m v u u0 : om_get m v = Some u0 -> rec_of t (om_set m v u) + pow_of t u0 = rec_of t m + pow_of t u.
Proof. intros H. unfold rec_of. exact (om_sum_set_old (fun _ u => pow_of t u) m v u0 u H). Qed.
Lemma rec_remove t m v u0 : om_get m v = Some u0 -> rec_of t m = pow_of t u0 + rec_of t (om_remove m v).
Proof. intros H. unfold rec_of. exact (om_sum_remove (fun _ u => pow_of t u) m v u0 H). Qed.

Lemma pvote_set_eq s id pv X : get_pvote (s <| m_votes := om_set (m_votes s) id pv |> <| m_voters := X |>) id = pv.
Proof. unfold get_pvote. cbn. rewrite om_get_set_eq. reflexivity. Qed.
Lemma pvote_set_ne s id id' pv X : id <> id' ->
  get_pvote (s <| m_votes := om_set (m_votes s) id pv |> <| m_voters := X |>) id' = get_pvote s id'.
Proof. intros H. unfold get_pvote. cbn. rewrite om_get_set_ne by exact H. reflexivity. Qed.

Lemma VI_vote s id v vt memo a s' : VI s -> vote_callback s id v vt memo a = Ok s' -> VI s'.
Proof.
  intros HV H. apply vote_cb_inv in H as (t & l & pv1 & -> & Hpos & Ev & Hb & Et & ->).
  set (u := mkMvote id vt (locked_sum l) memo) in *.
  set (mv := om_set (get_mvoter s v) id u) in *.
  set (s' := s <| m_votes := _ |> <| m_voters := _ |>).
  assert (Ep : get_pvote s' id = pv1) by apply pvote_set_eq.
  assert (Epn : forall id', id' <> id -> get_pvote s' id' = get_pvote s id') by (intros id' Hi; apply pvote_set_ne; congruence).
  assert (Em : get_mvoter s' v = mv) by (unfold get_mvoter; subst s'; cbn; rewrite om_get_set_eq; reflexivity).
  assert (Emn : forall w, w <> v -> get_mvoter s' w = get_mvoter s w).
  { intros w Hw. unfold get_mvoter; subst s'; cbn; rewrite om_get_set_ne by congruence; reflexivity. }
  split.
  - subst s'. cbn. apply om_set_NoDup. apply HV.
  - subst s'. cbn. apply om_set_NoDup. apply HV.
  - intros id'. destruct (decide (id' = id)) as [->|Hi]; [rewrite Ep, Ev; apply om_set_NoDup, HV|rewrite Epn by exact Hi; apply HV].
  - intros w. destruct (decide (w = v)) as [->|Hw]; [rewrite Em; apply om_set_NoDup, HV|rewrite Emn by exact Hw; apply HV].
  - intros id' w. destruct (decide (id' = id)) as [->|Hi].
    + rewrite Ep, Ev. destruct (decide (w = v)) as [->|Hw].
      * rewrite Em. unfold mv. rewrite !om_get_set_eq. reflexivity.
      * rewrite Emn by exact Hw. rewrite om_get_set_ne by congruence. apply HV.
    + rewrite Epn by exact Hi. destruct (decide (w = v)) as [->|Hw].
      * rewrite Em. unfold mv. rewrite om_get_set_ne by congruence. apply HV.
      * rewrite Emn by exact Hw. apply HV.
  - intros w m Hm. subst s'. cbn in Hm. destruct (decide (w = v)) as [->|Hw].
    + rewrite om_get_set_eq in Hm. injection Hm as <-. intros E. assert (G : om_get mv id = Some u) by apply om_get_set_eq.
      rewrite E in G. discriminate G.
    + rewrite om_get_set_ne in Hm by congruence. eapply vi_nonempty; [exact HV|exact Hm].
  - intros id' w u' Hu. destruct (decide (w = v)) as [->|Hw].
    + rewrite Em in Hu. unfold mv in Hu. destruct (decide (id' = id)) as [->|Hi].
      * rewrite om_get_set_eq in Hu. injection Hu as <-. split; [reflexivity|exact Hpos].
      * rewrite om_get_set_ne in Hu by congruence. eapply vi_rec; [exact HV|exact Hu].
    + rewrite Emn in Hu by exact Hw. eapply vi_rec; [exact HV|exact Hu].
  - intros id' t'. rewrite recorded_eq, tally_eq. pose proof (vi_tally s HV id' t') as Hle. rewrite recorded_eq, tally_eq in Hle.
    destruct (decide (id' = id)) as [->|Hi]; [|rewrite Epn by exact Hi; exact Hle].
    rewrite Ep, Ev, Et. change (if decide (vt = t') then locked_sum l else 0) with (pow_of t' u).
    destruct (om_get (pv_voted (get_pvote s id)) v) as [u0|] eqn:E.
    + pose proof (rec_set_old t' _ v u u0 E). lia.
    + rewrite rec_set_new by exact E. lia.
Qed.

Lemma VI_remove c s id s' out : VI s -> remove_vote_proposal c s id = Ok (s', out) -> VI s'.
Proof.
  intros HV H. apply remove_inv in H as (p & u & pv1 & _ & _ & _ & _ & Hu & Ev & Hle & Et & _ & Es). set (v := c_pred c) in *.
  set (mv := om_remove (get_mvoter s v) id) in *.
  assert (Ep : get_pvote s' id = pv1) by (rewrite Es; apply pvote_set_eq).
  assert (Epn : forall id', id' <> id -> get_pvote s' id' = get_pvote s id') by (intros id' Hi; rewrite Es; apply pvote_set_ne; congruence).
  assert (Emv : m_voters s' = match mv with [] => om_remove (m_voters s) v | _ => om_set (m_voters s) v mv end) by (rewrite Es; reflexivity).
  assert (Evo : m_votes s' = om_set (m_votes s) id pv1) by (rewrite Es; reflexivity). clear Es.
  assert (Em : get_mvoter s' v = mv).
  { unfold get_mvoter. rewrite Emv. destruct mv eqn:E; [rewrite om_get_remove_eq by apply HV|rewrite om_get_set_eq]; reflexivity. }
  assert (Emn : forall w, w <> v -> om_get (m_voters s') w = om_get (m_voters s) w).
  { intros w Hw. rewrite Emv. destruct mv; [apply om_get_remove_ne; [apply HV|congruence]|apply om_get_set_ne; congruence]. }
  assert (Emn' : forall w, w <> v -> get_mvoter s' w = get_mvoter s w) by (intros w Hw; unfold get_mvoter; rewrite Emn by exact Hw; reflexivity).
  split.
  - rewrite Evo. apply om_set_NoDup. apply HV.
  - rewrite Emv. destruct mv; [apply om_remove_NoDup|apply om_set_NoDup]; apply HV.
  - intros id'. destruct (decide (id' = id)) as [->|Hi]; [rewrite Ep, Ev; apply om_remove_NoDup, HV|rewrite Epn by exact Hi; apply HV].
  - intros w. destruct (decide (w = v)) as [->|Hw]; [rewrite Em; apply om_remove_NoDup, HV|rewrite Emn' by exact Hw; apply HV].
  - intros id' w. destruct (decide (id' = id)) as [->|Hi].
    + rewrite Ep, Ev. destruct (decide (w = v)) as [->|Hw].
      * rewrite Em. unfold mv. rewrite !om_get_remove_eq by apply HV. reflexivity.
      * rewrite Emn' by exact Hw. rewrite om_get_remove_ne by (apply HV || congruence). apply HV.
    + rewrite Epn by exact Hi. destruct (decide (w = v)) as [->|Hw].
      * rewrite Em. unfold mv. rewrite om_get_remove_ne by (apply HV || congruence). apply HV.
      * rewrite Emn' by exact Hw. apply HV.
  - intros w m Hm. destruct (decide (w = v)) as [->|Hw].
    + rewrite Emv in Hm. destruct mv; [rewrite om_get_remove_eq in Hm by apply HV; discriminate|].
      rewrite om_get_set_eq in Hm. injection Hm as <-. discriminate.
    + rewrite Emn in Hm by exact Hw. eapply vi_nonempty; [exact HV|exact Hm].
  - intros id' w u' Hu'. destruct (decide (w = v)) as [->|Hw].
    + rewrite Em in Hu'. unfold mv in Hu'. destruct (decide (id' = id)) as [->|Hi].
      * rewrite om_get_remove_eq in Hu' by apply HV. discriminate.
      * rewrite om_get_remove_ne in Hu' by (apply HV || congruence). eapply vi_rec; [exact HV|exact Hu'].
    + rewrite Emn' in Hu' by exact Hw. eapply vi_rec; [exact HV|exact Hu'].
  - intros id' t'. rewrite recorded_eq, tally_eq. pose proof (vi_tally s HV id' t') as Hl. rewrite recorded_eq, tally_eq in Hl.
    destruct (decide (id' = id)) as [->|Hi]; [|rewrite Epn by exact Hi; exact Hl].
    rewrite Ep, Ev, Et. change (if decide (vt_type u = t') then vt_power u else 0) with (pow_of t' u).
    pose proof (rec_remove t' _ v u Hu). lia.
Qed.

Lemma mcallback_votes c s k a s' :
  mcallback c s k a = Ok s' -> (forall id v vt memo, k <> KVote id v vt memo) ->
  m_votes s' = m_votes s /\ m_voters s' = m_voters s.
Proof.
  intros H Hn. destruct k; cbn [mcallback] in H; [| |exfalso; eapply Hn; reflexivity].
  - unfold start_callback in H. rinv. split; reflexivity.
  - unfold create_callback in H. rinv. split; reflexivity.
Qed.

Lemma remove_dec o : (exists id, o = RemoveVoteProposal id) \/ (forall id, o <> RemoveVoteProposal id).
Proof. destruct o; try (right; discriminate). left. eauto. Qed.
Lemma vote_dec k : (exists id v vt memo, k = KVote id v vt memo) \/ (forall id v vt memo, k <> KVote id v vt memo).
Proof. destruct k; try (right; discriminate). left. eauto. Qed.

Lemma VI_call c s o s' out : VI s -> mcall c s o = Ok (s', out) -> VI s'.
Proof.
  intros HV H. destruct (remove_dec o) as [(id & ->)|Hn].
  - eapply VI_remove; [exact HV|exact H].
  - apply mcall_votes in H as [E1 E2]; [|exact Hn]. eapply VI_ext; eassumption.
Qed.

Lemma VI_back c s k a s' : VI s -> mcallback c s k a = Ok s' -> VI s'.
Proof.
  intros HV H. destruct (vote_dec k) as [(id & v & vt & memo & ->)|Hn].
  - eapply VI_vote; [exact HV|exact H].
  - apply mcallback_votes in H as [E1 E2]; [|exact Hn]. eapply VI_ext; eassumption.
Qed.

(** ** Steps of the world *)
Inductive wcase (w : world) : mevent -> world -> Prop :=
| wc_noop x : wcase w x w
| wc_call c o s' out : mcall c (w_m w) o = Ok (s', out) -> (forall p, out <> OAsk p) ->
    wcase w (MCall c o) (mkWorld s' (w_pend w))
| wc_ask c o s' p : mcall c (w_m w) o = Ok (s', OAsk p) ->
    wcase w (MCall c o) (mkWorld s' (w_pend w ++ [p]))
| wc_back i ts a p s' : w_pend w !! i = Some p ->
    mcallback (callback_ctx (w_m w) p ts) (w_m w) (pd_kind p) a = Ok s' ->
    wcase w (MAnswer i ts a) (mkWorld s' (delete i (w_pend w)))
| wc_drop i ts a p m : w_pend w !! i = Some p ->
    mcallback (callback_ctx (w_m w) p ts) (w_m w) (pd_kind p) a = Panic m ->
    wcase w (MAnswer i ts a) (mkWorld (w_m w) (delete i (w_pend w))).

Lemma wstep_case w x : wcase w x (wstep w x).
Proof.
  destruct x as [c o|i ts a]; cbn [wstep].
  - destruct (mcall c (w_m w) o) as [[s' out]|] eqn:E; [|constructor].
    destruct out; [eapply wc_call; [exact E|discriminate]|apply wc_ask; exact E|eapply wc_call; [exact E|discriminate]].
  - destruct (w_pend w !! i) as [p|] eqn:Ei; [|constructor].
    destruct (mcallback _ _ _ _) as [s'|] eqn:E; [eapply wc_back; eassumption|eapply wc_drop; eassumption].
Qed.

Lemma wrun_inv (P : world -> Prop) (Q : world -> mevent -> Prop) tr : forall w,
  walong Q w tr -> (forall w x, P w -> Q w x -> P (wstep w x)) -> P w -> P (wrun w tr).
Proof.
  induction tr as [|x tr IH]; intros w HQ Hs Hw; [exact Hw|]. destruct HQ as [Hx HQ].
  cbn [wrun fold_left]. apply IH; [exact HQ|exact Hs|]. apply Hs; assumption.
Qed.
Lemma walong_True w tr : walong (fun _ _ => True) w tr.
Proof. revert w. induction tr; intros w; cbn; auto. Qed.
Lemma wrun_snoc w tr x : wrun w (tr ++ [x]) = wstep (wrun w tr) x.
Proof. unfold wrun. rewrite fold_left_app. reflexivity. Qed.
Lemma wrun_app w tr1 tr2 : wrun w (tr1 ++ tr2) = wrun (wrun w tr1) tr2.
Proof. unfold wrun. apply fold_left_app. Qed.

Lemma VI_step w x : VI (w_m w) -> VI (w_m (wstep w x)).
Proof.
  intros HV. destruct (wstep_case w x); cbn [w_m]; [exact HV|eapply VI_call; eassumption|eapply VI_call; eassumption|eapply VI_back; eassumption|exact HV].
Qed.
Lemma VI_reach w tr : mreach w tr -> VI (w_m w).
Proof.
  intros (a & s0 & H0 & ->). apply (wrun_inv (fun w => VI (w_m w)) (fun _ _ => True)).
  - apply walong_True.
  - intros w x Hw _. apply VI_step. exact Hw.
  - eapply VI_init. exact H0.
Qed.

Lemma has_voted_iff s id v : internal_has_voted s id v = true <-> exists u, om_get (get_mvoter s v) id = Some u.
Proof.
  unfold internal_has_voted, get_mvoter. destruct (om_get (m_voters s) v) as [m|]; cbn [default from_option].
  - unfold Datatypes.id. destruct (om_get m id); split; eauto; try discriminate. intros (u & H). discriminate H.
  - split; [discriminate|]. intros (u & H). discriminate H.
Qed.

(** what each call asks for *)
Lemma mcall_asks c s o s' p :
  mcall c s o = Ok (s', OAsk p) ->
  s' = s /\ pd_signer p = c_signer c /\ pd_contract p = m_meta_vote s /\
  match pd_kind p with
  | KStart id => o = StartVoting id /\ c_deposit c = 0 /\ pd_ask p = AskTotal /\
      exists q, get_mpip s id = Ok q /\ (m_operator s = c_signer c \/ pr_creator q = c_signer c) /\
        is_active_or_draft (now_ms c) q = true
  | KCreate ct => o = CreateProposal ct /\ pd_ask p = AskPositions (c_pred c) /\
      m_open s = true /\ m_storage s <= c_deposit c
  | KVote id v vt memo => o = VoteProposal id vt memo /\ v = c_pred c /\ c_deposit c = 0 /\
      pd_ask p = AskPositions v /\ internal_has_voted s id v = false /\
      exists q, get_mpip s id = Ok q /\ is_on_voting (now_ms c) q = Ok true
  end.
Proof.
  intros H. destruct o; cbn [mcall] in H;
    try (apply process_inv in H as (H & _); discriminate H);
    try (apply remove_inv in H as (? & ? & ? & _ & _ & _ & _ & _ & _ & _ & _ & H & _); discriminate H);
    try (unfold update_open, update_operator_role, update_admin_role, pay_to_account, update_meta_vote_address,
      update_voting_period, update_min_meta, update_min_vp, update_storage, update_quorum_floor,
      cancel_proposal, update_proposal in H; rinv; discriminate).
  - unfold start_voting_period in H. apply bind_Ok in H as (u1 & Hd & H). apply require_Ok, N.eqb_eq in Hd.
    apply bind_Ok in H as (u2 & Ha & H). apply bind_Ok in H as (u3 & Hb & H). injection H as <- <-. cbn.
    unfold assert_only_operator_or_creator in Ha. apply bind_Ok in Ha as (q & Hq & Ha).
    apply require_Ok, orb_true_iff in Ha. rewrite !bool_decide_eq_true in Ha.
    unfold assert_active_or_draft in Hb. apply bind_Ok in Hb as (q' & Hq' & Hb). apply require_Ok in Hb.
    assert (q' = q) as -> by congruence. repeat (split; [reflexivity || exact Hd|]). exists q. auto.
  - unfold create_proposal in H. apply bind_Ok in H as (u1 & Ho & H). apply require_Ok in Ho.
    apply bind_Ok in H as (u2 & Hd & H). apply require_Ok, N.leb_le in Hd. injection H as <- <-. cbn. auto 10.
  - unfold vote_proposal in H. apply bind_Ok in H as (u1 & Hd & H). apply require_Ok, N.eqb_eq in Hd.
    apply bind_Ok in H as (u2 & Hv & H). apply bind_Ok in H as (u3 & Hn & H). apply require_Ok, negb_true_iff in Hn.
    unfold assert_on_voting in Hv. apply bind_Ok in Hv as (q & Hq & Hv). apply bind_Ok in Hv as (b & Hb & Hv).
    apply require_Ok in Hv as ->. injection H as <- <-. cbn.
    repeat (split; [reflexivity || exact Hd || exact Hn|]). exists q. auto.
Qed.

(** ** C38: exact tallies without overlapping votes *)
Definition vkey (p : pending) : option (N * string) :=
  match pd_kind p with KVote id v _ _ => Some (id, v) | _ => None end.
Definition flights (w : world) : list (N * string) := omap vkey (w_pend w).
Lemma in_flight_iff w id v : vote_in_flight w id v <-> (id, v) ∈ flights w.
Proof.
  unfold vote_in_flight, flights. rewrite elem_of_list_omap. split.
  - intros (p & vt & memo & Hin & E). exists p. split; [apply elem_of_list_In; exact Hin|]. unfold vkey. rewrite E. reflexivity.
  - intros (p & Hin & E). unfold vkey in E. destruct (pd_kind p) as [| |id' v' vt memo] eqn:Ek; try discriminate.
    injection E as -> ->. exists p, vt, memo. split; [apply elem_of_list_In; exact Hin|exact Ek].
Qed.

Record SF (w : world) : Prop := {
  sf_vi : VI (w_m w);
  sf_eq : forall id t, tally (w_m w) id t = recorded (w_m w) id t;
  sf_nd : NoDup (flights w);
  sf_none : forall id v, (id, v) ∈ flights w -> om_get (get_mvoter (w_m w) v) id = None;
}.

Lemma flights_delete w i p s' :
  w_pend w !! i = Some p -> flights w ≡ₚ option_list (vkey p) ++ flights (mkWorld s' (delete i (w_pend w))).
Proof.
  intros H. unfold flights. cbn [w_pend]. rewrite (delete_Permutation _ _ _ H) at 1. cbn. destruct (vkey p); reflexivity.
Qed.

Lemma SF_ext w w' :
  SF w -> m_votes (w_m w') = m_votes (w_m w) -> m_voters (w_m w') = m_voters (w_m w) ->
  NoDup (flights w') -> (forall k, k ∈ flights w' -> k ∈ flights w \/ om_get (get_mvoter (w_m w) k.2) k.1 = None) -> SF w'.
Proof.
  intros H E1 E2 Hn Hi. split.
  - eapply VI_ext; [exact E1|exact E2|apply H].
  - intros id t. pose proof (sf_eq w H id t) as E. rewrite tally_eq, recorded_eq in *. unfold get_pvote in *. rewrite E1. exact E.
  - exact Hn.
  - intros id v Hin. unfold get_mvoter. rewrite E2. destruct (Hi _ Hin) as [Hin'|Hx]; [apply (sf_none w H); exact Hin'|exact Hx].
Qed.

Lemma SF_step w x : SF w -> no_double_vote w x -> SF (wstep w x).
Proof.
  intros H Hd. destruct (wstep_case w x) as [x|c o s' out Hc Ho|c o s' p Hc|i ts a p s' Hi Hc|i ts a p m Hi Hc].
  - exact H.
  - destruct (remove_dec o) as [(id & ->)|Hn].
    2: { apply mcall_votes in Hc as [E1 E2]; [|exact Hn].
         apply (SF_ext w); [exact H|exact E1|exact E2|apply H|intros k Hk; left; exact Hk]. }
    pose proof (VI_remove _ _ _ _ _ (sf_vi _ H) Hc) as HV'.
    pose proof (sf_vi _ H) as HV.
    apply remove_inv in Hc as (p & u & pv1 & _ & _ & _ & Hv & Hu & Ev & Hle & Et & _ & Es). set (v := c_pred c) in *.
    set (s := w_m w) in *.
    split; cbn [w_m].
    + exact HV'.
    + intros id' t'. pose proof (sf_eq w H id' t') as E. fold s in E. rewrite tally_eq, recorded_eq in *. rewrite Es.
      destruct (decide (id' = id)) as [->|Hx].
      * rewrite pvote_set_eq, Et, Ev. pose proof (rec_remove t' _ _ _ Hu) as R.
        change (if decide (vt_type u = t') then vt_power u else 0) with (pow_of t' u). lia.
      * rewrite pvote_set_ne by congruence. exact E.
    + apply H.
    + intros id' v' Hin. pose proof (sf_none w H id' v' Hin) as Hz. fold s in Hz.
      assert (Ea : om_get (pv_voted (get_pvote s' id')) v' = None); [|rewrite <- (vi_agree _ HV'); exact Ea].
      rewrite <- (vi_agree _ HV) in Hz. rewrite Es. destruct (decide (id' = id)) as [->|Hx].
      * rewrite pvote_set_eq, Ev. destruct (decide (v' = v)) as [->|Hw]; [apply om_get_remove_eq, HV|].
        rewrite om_get_remove_ne; [exact Hz|apply HV|congruence].
      * rewrite pvote_set_ne by congruence. exact Hz.
  - pose proof (mcall_asks _ _ _ _ _ Hc) as (-> & _ & _ & Hk).
    apply (SF_ext w); [exact H|reflexivity|reflexivity| |].
    + unfold flights. cbn [w_pend]. rewrite omap_app. cbn. unfold vkey at 2. destruct (pd_kind p) as [| |id v vt memo];
        [rewrite app_nil_r; apply H|rewrite app_nil_r; apply H|].
      destruct Hk as (-> & -> & _). cbn in Hd. rewrite in_flight_iff in Hd. apply NoDup_app. split; [apply H|]. split.
      * intros k Hk Hk'. apply elem_of_list_singleton in Hk' as ->. exact (Hd Hk).
      * apply NoDup_singleton.
    + intros k Hin. unfold flights in Hin. cbn [w_pend] in Hin. rewrite omap_app in Hin. apply elem_of_app in Hin as [Hin|Hin]; [left; exact Hin|].
      right. cbn in Hin. unfold vkey in Hin. destruct (pd_kind p) as [| |id v vt memo]; try (inversion Hin; fail).
      apply elem_of_list_singleton in Hin as ->. cbn [fst snd]. destruct Hk as (_ & -> & _ & _ & Hn & _).
      destruct (om_get (get_mvoter (w_m w) (c_pred c)) id) eqn:E; [|reflexivity].
      exfalso. assert (internal_has_voted (w_m w) id (c_pred c) = true) by (apply has_voted_iff; eauto). congruence.
  - pose proof (flights_delete w i p s' Hi) as Hp.
    assert (Hnd : NoDup (flights (mkWorld s' (delete i (w_pend w))))).
    { pose proof (sf_nd w H) as Hn. rewrite Hp in Hn. apply NoDup_app in Hn. apply Hn. }
    assert (Hsub : forall k, k ∈ flights (mkWorld s' (delete i (w_pend w))) -> k ∈ flights w).
    { intros k Hk. rewrite Hp. apply elem_of_app. right. exact Hk. }
    destruct (vote_dec (pd_kind p)) as [(id & v & vt & memo & Ek)|Hn].
    2: { apply mcallback_votes in Hc as [E1 E2]; [|exact Hn].
         apply (SF_ext w); [exact H|exact E1|exact E2|exact Hnd|intros k Hk; left; apply Hsub; exact Hk]. }
    pose proof (sf_vi _ H) as HV. pose proof (VI_back _ _ _ _ _ HV Hc) as HV'.
    rewrite Ek in Hc. cbn [mcallback] in Hc.
    assert (Hkey : vkey p = Some (id, v)) by (unfold vkey; rewrite Ek; reflexivity). rewrite Hkey in Hp. cbn [option_list] in Hp.
    assert (Hnone : om_get (get_mvoter (w_m w) v) id = None).
    { apply (sf_none w H). rewrite Hp. left. }
    assert (Hnin : (id, v) ∉ flights (mkWorld s' (delete i (w_pend w)))).
    { pose proof (sf_nd w H) as Hn. rewrite Hp in Hn. apply NoDup_cons in Hn. apply Hn. }
    apply vote_cb_inv in Hc as (t & l & pv1 & -> & Hpos & Ev & Hb & Et & Es). set (u := mkMvote id vt (locked_sum l) memo) in *.
    split; cbn [w_m].
    + exact HV'.
    + intros id' t'. pose proof (sf_eq w H id' t') as E. rewrite tally_eq, recorded_eq in *. rewrite Es.
      destruct (decide (id' = id)) as [->|Hx].
      * rewrite pvote_set_eq, Et, Ev. rewrite rec_set_new by (rewrite (vi_agree _ HV); exact Hnone). rewrite E. reflexivity.
      * rewrite pvote_set_ne by congruence. exact E.
    + exact Hnd.
    + intros id' v' Hin. pose proof (sf_none w H id' v' (Hsub _ Hin)) as Hz.
      assert (Hne : (id', v') <> (id, v)) by (intros E; injection E as -> ->; exact (Hnin Hin)).
      rewrite <- (vi_agree _ HV'). rewrite <- (vi_agree _ HV) in Hz. rewrite Es. destruct (decide (id' = id)) as [->|Hx].
      * rewrite pvote_set_eq, Ev. rewrite om_get_set_ne; [exact Hz|congruence].
      * rewrite pvote_set_ne by congruence. exact Hz.
  - pose proof (flights_delete w i p (w_m w) Hi) as Hp.
    apply (SF_ext w); [exact H|reflexivity|reflexivity| |].
    + pose proof (sf_nd w H) as Hn. rewrite Hp in Hn. apply NoDup_app in Hn. apply Hn.
    + intros k Hk. left. rewrite Hp. apply elem_of_app. right. exact Hk.
Qed.

Lemma SF_init a s0 : mpip_new a = Ok s0 -> SF (winit s0).
Proof.
  intros H0. pose proof (VI_init _ _ H0) as HV. split; [exact HV| |constructor|].
  - intros id t. unfold mpip_new in H0. apply bind_Ok in H0 as (u & _ & H0). injection H0 as <-.
    rewrite tally_eq, recorded_eq. cbn. destruct t; reflexivity.
  - intros id v Hin. inversion Hin.
Qed.
Lemma c38_exact a s0 tr :
  mpip_new a = Ok s0 -> walong no_double_vote (winit s0) tr ->
  forall id t, tally (w_m (wrun (winit s0) tr)) id t = recorded (w_m (wrun (winit s0) tr)) id t.
Proof.
  intros H0 Hw. apply sf_eq. apply (wrun_inv SF no_double_vote); [exact Hw|intros; apply SF_step; assumption|]. eapply SF_init. exact H0.
Qed.
Lemma c38_lower w tr : mreach w tr -> forall id t, recorded (w_m w) id t <= tally (w_m w) id t.
Proof. intros H. apply vi_tally. eapply VI_reach. exact H. Qed.

(** ** C39 *)
Lemma c39 w tr c id p :
  mreach w tr -> let s := w_m w in
  c_deposit c = 0 -> get_proposal s id = Ok p -> is_on_voting (now_ms c) p = Ok true -> has_voted s (c_pred c) id = true ->
  exists s' u, mcall c s (RemoveVoteProposal id) = Ok (s', ONone) /\
    get_my_vote s (c_pred c) id = Ok (Some (c_pred c, u)) /\
    has_voted s' (c_pred c) id = false /\
    (forall t, tally s' id t + (if decide (vt_type u = t) then vt_power u else 0) = tally s id t) /\
    (forall t, recorded s' id t + (if decide (vt_type u = t) then vt_power u else 0) = recorded s id t) /\
    (forall id' t, id' <> id -> tally s' id' t = tally s id' t) /\
    (forall v id', (v, id') <> (c_pred c, id) -> get_my_vote s' v id' = get_my_vote s v id').
Proof.
  intros Hr s Hd Hp Hv Hh. pose proof (VI_reach _ _ Hr) as HV. fold s in HV.
  unfold has_voted in Hh. pose proof Hh as Hh'. apply has_voted_iff in Hh' as (u & Hu).
  pose proof Hu as Hu2. rewrite <- (vi_agree _ HV) in Hu2.
  assert (Hle : vt_power u <= tally_of (get_pvote s id) (vt_type u)).
  { pose proof (vi_tally _ HV id (vt_type u)) as Hl. rewrite recorded_eq, tally_eq in Hl.
    pose proof (rec_remove (vt_type u) _ _ _ Hu2) as R. unfold pow_of in R. rewrite decide_True in R by reflexivity. lia. }
  destruct (sub_tally_ok _ _ _ Hle) as (v1 & Hs).
  assert (Hex : exists s', mcall c s (RemoveVoteProposal id) = Ok (s', ONone)).
  { cbn [mcall]. unfold remove_vote_proposal, non_payable. rewrite Hd. cbn [N.eqb require mbind res_bind].
    unfold assert_on_voting. unfold get_proposal in Hp. rewrite Hp. cbn [mbind res_bind]. rewrite Hv. cbn [mbind res_bind require].
    rewrite Hh. cbn [require mbind res_bind]. rewrite Hu2. cbn [expect mbind res_bind]. rewrite Hs. cbn [mbind res_bind].
    eexists. reflexivity. }
  destruct Hex as (s' & Hx). exists s', u. split; [exact Hx|]. cbn [mcall] in Hx.
  pose proof (VI_remove _ _ _ _ _ HV Hx) as HV'.
  apply remove_inv in Hx as (q & u' & pv1 & _ & _ & _ & _ & Hu' & Ev & _ & Et & _ & Es).
  assert (u' = u) as -> by congruence.
  assert (Ep : get_pvote s' id = pv1) by (rewrite Es; apply pvote_set_eq).
  assert (Epn : forall id', id' <> id -> get_pvote s' id' = get_pvote s id') by (intros id' Hi; rewrite Es; apply pvote_set_ne; congruence).
  assert (Hm : forall s1 v id', VI s1 -> get_my_vote s1 v id' = Ok (pair v <$> om_get (pv_voted (get_pvote s1 id')) v)).
  { intros s1 v id' H1. rewrite (vi_agree _ H1). unfold get_my_vote, internal_has_voted, get_mvoter.
    destruct (om_get (m_voters s1) v) as [m|] eqn:Em; [|reflexivity]. cbn [default from_option]. unfold Datatypes.id.
    destruct (om_get m id') as [x|] eqn:Ex; [|reflexivity]. cbn [expect mbind res_bind]. rewrite Ex. reflexivity. }
  split; [rewrite (Hm s _ _ HV), Hu2; reflexivity|]. split.
  { destruct (has_voted s' (c_pred c) id) eqn:E; [|reflexivity]. apply has_voted_iff in E as (z & Hz).
    rewrite <- (vi_agree _ HV'), Ep, Ev, om_get_remove_eq in Hz by apply HV. discriminate. }
  split.
  { intros t. rewrite !tally_eq, Ep, Et. destruct (decide (vt_type u = t)) as [<-|]; lia. }
  split.
  { intros t. rewrite !recorded_eq, Ep, Ev. pose proof (rec_remove t _ _ _ Hu2) as R. unfold pow_of in R. lia. }
  split.
  { intros id' t Hi. rewrite !tally_eq, Epn by exact Hi. reflexivity. }
  intros v id' Hne. rewrite (Hm s' _ _ HV'), (Hm s _ _ HV). f_equal. f_equal. destruct (decide (id' = id)) as [->|Hi].
  - rewrite Ep, Ev. apply om_get_remove_ne; [apply HV|congruence].
  - rewrite Epn by exact Hi. reflexivity.
Qed.

(** ** C40 *)
Lemma my_vote_eq s v id : VI s -> get_my_vote s v id = Ok (pair v <$> om_get (pv_voted (get_pvote s id)) v).
Proof.
  intros H1. rewrite (vi_agree _ H1). unfold get_my_vote, internal_has_voted, get_mvoter.
  destruct (om_get (m_voters s) v) as [m|] eqn:Em; [|reflexivity]. cbn [default from_option]. unfold Datatypes.id.
  destruct (om_get m id) as [x|] eqn:Ex; [|reflexivity]. cbn [expect mbind res_bind]. rewrite Ex. reflexivity.
Qed.
Lemma c40 w tr : mreach w tr -> let s := w_m w in
  (forall id, NoDup (listed s id).*1) /\
  (forall v id j, get_my_vote s v id = Ok (Some j) <-> In j (listed s id) /\ j.1 = v) /\
  (forall v id, has_voted s v id = true <-> exists j, In j (listed s id) /\ j.1 = v) /\
  (forall v j, In j (get_voter_votes s v) <-> get_my_vote s v (vt_mpip j.2) = Ok (Some j)) /\
  (exists l, NoDup l /\ (forall v, In v l <-> exists id, has_voted s v id = true) /\
     get_total_voters s = pretty (N.of_nat (length l))).
Proof.
  intros Hr s. pose proof (VI_reach _ _ Hr) as HV. fold s in HV.
  assert (H1 : forall v id j, get_my_vote s v id = Ok (Some j) <-> In j (listed s id) /\ j.1 = v).
  { intros v id [v0 u]. rewrite (my_vote_eq s v id HV), listed_eq. split.
    - intros E. destruct (om_get (pv_voted (get_pvote s id)) v) as [x|] eqn:Ex; [|discriminate]. injection E as <- <-.
      split; [|reflexivity]. apply om_get_Some_In. exact Ex.
    - intros [Hin E]. cbn in E. subst v0. rewrite (om_In_get _ _ _ (vi_nd_pv _ HV id) Hin). reflexivity. }
  split; [intros id; apply HV|]. split; [exact H1|]. split; [|split].
  - intros v id. unfold has_voted. rewrite has_voted_iff. split.
    + intros (u & Hu). exists (v, u). rewrite <- (vi_agree _ HV) in Hu. split; [apply om_get_Some_In; exact Hu|reflexivity].
    + intros ([v0 u] & Hin & E). cbn in E. subst v0. exists u. rewrite <- (vi_agree _ HV). apply om_In_get; [apply HV|exact Hin].
  - intros v [v0 u]. unfold get_voter_votes. rewrite in_map_iff. cbn [snd]. rewrite (my_vote_eq s v _ HV), (vi_agree _ HV). split.
    + intros ([id x] & E & Hin). cbn in E. injection E as <- <-. pose proof (om_In_get _ _ _ (vi_nd_mv _ HV v) Hin) as Hg.
      destruct (vi_rec _ HV _ _ _ Hg) as [-> _]. rewrite Hg. reflexivity.
    + intros E. destruct (om_get (get_mvoter s v) (vt_mpip u)) as [x|] eqn:Ex; [|discriminate]. injection E as <- ->.
      exists (vt_mpip u, u). split; [reflexivity|]. exact (om_get_Some_In _ _ _ Ex).
  - exists (m_voters s).*1. split; [apply HV|]. split.
    + intros v. rewrite <- elem_of_list_In. unfold has_voted. split.
      * intros Hin. destruct (om_get (m_voters s) v) as [m|] eqn:Em; [|exfalso; apply om_get_None in Em; exact (Em Hin)].
        destruct m as [|[id u] m]; [exfalso; exact (vi_nonempty _ HV _ _ Em eq_refl)|].
        exists id. apply has_voted_iff. exists u. unfold get_mvoter. rewrite Em. cbn. rewrite decide_True by reflexivity. reflexivity.
      * intros (id & Hh). apply has_voted_iff in Hh as (u & Hu). unfold get_mvoter in Hu.
        destruct (om_get (m_voters s) v) as [m|] eqn:Em; [|discriminate Hu]. eapply om_get_Some_key. exact Em.
    + unfold get_total_voters. rewrite fmap_length. reflexivity.
Qed.
