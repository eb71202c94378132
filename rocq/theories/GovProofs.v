(** GovProofs.v -- C65-C67. *)

From Verif Require Export GovSpec MpipInv MpipLife MpipTime MVTime.

Lemma grun_snoc g tr x : grun g (tr ++ [x]) = gstep (grun g tr) x.
Proof. unfold grun. rewrite fold_left_app. reflexivity. Qed.
Lemma grun_app g tr1 tr2 : grun g (tr1 ++ tr2) = grun (grun g tr1) tr2.
Proof. apply fold_left_app. Qed.

(** ** Projections *)
Definition mv_of (x : gev) : list call := match x with GVote x => [x] | _ => [] end.
Definition mvs (tr : list gev) : list call := flat_map mv_of tr.
Lemma mvs_app tr1 tr2 : mvs (tr1 ++ tr2) = mvs tr1 ++ mvs tr2.
Proof. apply flat_map_app. Qed.
Lemma gstep_mv g x : g_mv (gstep g x) = run (g_mv g) (mv_of x).
Proof.
  destruct x as [x|c o|i ts f alt|i ts]; cbn [gstep mv_of]; try reflexivity.
  - destruct (mcall _ _ _) as [[s' out]|]; [destruct out|]; reflexivity.
  - destruct (g_pend g !! i) as [[p [a|]]|]; reflexivity.
  - destruct (g_pend g !! i) as [[p [a|]]|]; reflexivity.
Qed.
Lemma grun_mv tr : forall g, g_mv (grun g tr) = run (g_mv g) (mvs tr).
Proof.
  induction tr as [|x tr IH]; intros g; [reflexivity|]. cbn [grun fold_left]. fold (grun (gstep g x) tr).
  rewrite IH, gstep_mv, <- run_app. reflexivity.
Qed.

Definition proj (g : gov) : world := mkWorld (g_m g) (map fst (g_pend g)).
Definition mev_of (g : gov) (x : gev) : option mevent :=
  match x with
  | GCall c o => Some (MCall c o)
  | GBack i ts => match g_pend g !! i with Some (_, Some a) => Some (MAnswer i ts a) | _ => None end
  | _ => None
  end.
Lemma map_delete {A B} (f : A -> B) (l : list A) i : map f (delete i l) = delete i (map f l).
Proof. revert i. induction l as [|x l IH]; intros [|i]; cbn; try reflexivity. f_equal. apply IH. Qed.
Lemma map_insert_same {A B} (f : A -> B) (l : list A) i x y : l !! i = Some x -> f y = f x -> map f (<[i := y]> l) = map f l.
Proof.
  revert i. induction l as [|z l IH]; intros [|i]; cbn; try discriminate.
  - intros [= ->] ->. reflexivity.
  - intros H E. f_equal. apply IH; assumption.
Qed.
Lemma gstep_proj g x : proj (gstep g x) = match mev_of g x with Some y => wstep (proj g) y | None => proj g end.
Proof.
  destruct x as [x|c o|i ts f alt|i ts]; cbn [gstep mev_of]; unfold proj.
  - reflexivity.
  - cbn [wstep w_m w_pend]. destruct (mcall _ _ _) as [[s' out]|]; [|reflexivity]. destruct out; cbn [g_m g_pend]; try reflexivity.
    rewrite map_app. reflexivity.
  - destruct (g_pend g !! i) as [[p [a|]]|] eqn:E; try reflexivity. cbn [g_m g_pend].
    erewrite map_insert_same; [reflexivity|exact E|reflexivity].
  - destruct (g_pend g !! i) as [[p [a|]]|] eqn:E; try reflexivity. cbn [g_m g_pend wstep w_pend w_m].
    assert (map fst (g_pend g) !! i = Some p) as ->.
    { change (map fst (g_pend g)) with ((g_pend g).*1). rewrite list_lookup_fmap, E. reflexivity. }
    rewrite map_delete. reflexivity.
Qed.
Fixpoint mevs (g : gov) (tr : list gev) : list mevent :=
  match tr with
  | [] => []
  | x :: tr' => match mev_of g x with Some y => y :: mevs (gstep g x) tr' | None => mevs (gstep g x) tr' end
  end.
Lemma grun_proj tr : forall g, proj (grun g tr) = wrun (proj g) (mevs g tr).
Proof.
  induction tr as [|x tr IH]; intros g; [reflexivity|]. cbn [grun fold_left mevs]. fold (grun (gstep g x) tr).
  rewrite IH, gstep_proj. destruct (mev_of g x); reflexivity.
Qed.
Lemma linked_reach a b g0 tr : linked a b g0 tr -> mreach (proj (grun g0 tr)) (mevs g0 tr).
Proof.
  intros (s0 & m0 & _ & Hm & -> & _). exists b, m0. split; [exact Hm|]. rewrite grun_proj. reflexivity.
Qed.
Lemma linked_prefix a b g0 tr1 tr2 : linked a b g0 (tr1 ++ tr2) -> linked a b g0 tr1.
Proof.
  intros (s0 & m0 & H1 & H2 & H3 & H4 & H5). exists s0, m0. repeat (split; [assumption|]). apply Forall_app in H5. apply H5.
Qed.

(** ** The link *)
Lemma meta_vote_step w x : m_meta_vote (w_m (wstep w x)) = m_meta_vote (w_m w) \/
  exists c a, x = MCall c (UpdateMetaVoteAddress a) /\ m_meta_vote (w_m (wstep w x)) = a.
Proof.
  destruct (wstep_case w x) as [x|c o s' out Hc Ho|c o s' q Hc|i ts a q s' Hi Hc|i ts a q m Hi Hc]; cbn [w_m]; auto.
  - destruct (mcall_settings _ _ _ _ _ Hc) as [E|E]; [left; unfold settings in E; congruence|].
    destruct o; cbn [admin_call operator_call] in E; try (exfalso; destruct E; discriminate); cbn [mcall] in Hc.
    11: { apply process_inv in Hc as (_ & _ & [->|(p & _ & _ & _ & _ & ->)]); left; reflexivity. }
    all: unfold update_open, update_operator_role, update_admin_role, pay_to_account, update_meta_vote_address,
      update_voting_period, update_min_meta, update_min_vp, update_storage, update_quorum_floor in Hc;
     apply bind_Ok in Hc as (? & _ & Hc); apply bind_Ok in Hc as (? & _ & Hc); try (injection Hc as <- <-; left; reflexivity).
    + injection Hc as <- <-. right. eauto.
    + apply bind_Ok in Hc as (? & Hb & Hc). injection Hc as <- <-. left. reflexivity.
  - destruct (mcall_asks _ _ _ _ _ Hc) as (-> & _). auto.
  - apply mcallback_settings in Hc. unfold settings in Hc. left. congruence.
Qed.
Lemma linked_addr a b g0 tr : linked a b g0 tr -> m_meta_vote (g_m (grun g0 tr)) = self_id (g_mv (grun g0 tr)) /\
  self_id (g_mv (grun g0 tr)) = i_self a.
Proof.
  intros (s0 & m0 & H1 & H2 & -> & H4 & H5).
  assert (Es : forall l, self_id (g_mv (grun (ginit s0 m0) l)) = i_self a).
  { intros l. rewrite grun_mv. cbn [ginit g_mv]. pose proof (run_consts s0 (mvs l)) as E. unfold consts in E.
    assert (self_id (run s0 (mvs l)) = self_id s0) as -> by congruence. unfold mv_new in H1. rinv. reflexivity. }
  split; [|apply Es]. rewrite Es.
  induction tr as [|x tr IH] using rev_ind.
  { cbn. unfold mpip_new in H2. apply bind_Ok in H2 as (u & _ & H2). injection H2 as <-. exact H4. }
  apply Forall_app in H5 as [H5 Hx]. specialize (IH H5). apply Forall_cons in Hx as [Hx _].
  rewrite grun_snoc. change (g_m (gstep ?g x)) with (w_m (proj (gstep g x))). rewrite gstep_proj.
  destruct (mev_of _ x) as [y|] eqn:Ey; [|exact IH].
  destruct (meta_vote_step (proj (grun (ginit s0 m0) tr)) y) as [E|(c & ad & -> & E)]; rewrite E; [exact IH|].
  destruct x as [x|c' o|i ts f alt|i ts]; cbn [mev_of] in Ey; try discriminate.
  - injection Ey as -> ->. exact Hx.
  - destruct (g_pend _ !! i) as [[? [?|]]|]; discriminate.
Qed.

(** ** Where pending answers come from *)
Definition origin (g0 : gov) (tr : list gev) (p : pending) (oa : option answer) : Prop :=
  exists t1 c o t2, tr = t1 ++ GCall c o :: t2 /\
    mcall c (g_m (grun g0 t1)) o = Ok (g_m (grun g0 t1), OAsk p) /\
    match oa with
    | None | Some AFailed => True
    | Some a => exists t3 i ts alt t4, t2 = t3 ++ GQuery i ts false alt :: t4 /\
        a = answer_of (ts / 1000000) (g_mv (grun g0 (t1 ++ GCall c o :: t3))) (pd_ask p)
    end.
Lemma origin_snoc g0 tr x p oa : origin g0 tr p oa -> origin g0 (tr ++ [x]) p oa.
Proof.
  intros (t1 & c & o & t2 & -> & Hc & Ha). exists t1, c, o, (t2 ++ [x]).
  split; [rewrite <- app_assoc; reflexivity|]. split; [exact Hc|].
  destruct oa as [[|t l]|]; auto. destruct Ha as (t3 & i & ts & alt & t4 & -> & E).
  exists t3, i, ts, alt, (t4 ++ [x]). split; [rewrite <- app_assoc; reflexivity|exact E].
Qed.
Lemma pend_origin_g a b g0 tr p oa : linked a b g0 tr -> (p, oa) ∈ g_pend (grun g0 tr) -> origin g0 tr p oa.
Proof.
  revert p oa. induction tr as [|x tr IH] using rev_ind; intros p oa HL Hin.
  { destruct HL as (s0 & m0 & _ & _ & -> & _). cbn in Hin. inversion Hin. }
  pose proof (linked_prefix _ _ _ _ _ HL) as HL'.
  assert (Hold : forall q ob, (q, ob) ∈ g_pend (grun g0 tr) -> origin g0 (tr ++ [x]) q ob)
    by (intros q ob Hq; apply origin_snoc, IH; assumption).
  rewrite grun_snoc in Hin. destruct x as [x|c o|i ts f alt|i ts]; cbn [gstep] in Hin.
  - apply Hold. exact Hin.
  - destruct (mcall _ _ _) as [[s' out]|] eqn:Hc; [|apply Hold; exact Hin].
    destruct out as [|q|to n]; cbn [g_pend] in Hin; try (apply Hold; exact Hin).
    apply elem_of_app in Hin as [Hin|Hin]; [apply Hold; exact Hin|].
    apply elem_of_list_singleton in Hin. injection Hin as -> ->.
    exists tr, c, o, []. split; [reflexivity|]. destruct (mcall_asks _ _ _ _ _ Hc) as (-> & _). split; [exact Hc|exact I].
  - destruct (g_pend (grun g0 tr) !! i) as [[q [a0|]]|] eqn:Ei; try (apply Hold; exact Hin).
    cbn [g_pend] in Hin. apply elem_of_list_lookup in Hin as (k & Hk).
    destruct (decide (k = i)) as [->|Hne]; [|rewrite list_lookup_insert_ne in Hk by congruence; apply Hold; eapply elem_of_list_lookup_2; exact Hk].
    rewrite list_lookup_insert in Hk by (eapply lookup_lt_Some; exact Ei). injection Hk as <- <-.
    pose proof (IH q None HL' (elem_of_list_lookup_2 _ _ _ Ei)) as (t1 & c & o & t2 & E & Hc & _).
    exists t1, c, o, (t2 ++ [GQuery i ts f alt]). split; [rewrite E, <- app_assoc; reflexivity|]. split; [exact Hc|].
    destruct f; [exact I|].
    assert (Hq : pd_contract q = self_id (g_mv (grun g0 tr))).
    { destruct (mcall_asks _ _ _ _ _ Hc) as (_ & _ & -> & _). subst tr.
      destruct (linked_addr _ _ _ _ HL') as [_ ->]. destruct (linked_addr a b g0 t1) as [E1 E2]; [|congruence].
      eapply linked_prefix. exact HL'. }
    rewrite bool_decide_eq_true_2 by exact Hq.
    assert (forall P : Prop, P -> match answer_of (ts / 1000000) (g_mv (grun g0 tr)) (pd_ask q) with AFailed => True | _ => P end) as HX
      by (intros P HP; destruct (answer_of _ _ _); auto).
    apply HX. exists t2, i, ts, alt, []. split; [reflexivity|]. rewrite <- E. reflexivity.
  - destruct (g_pend (grun g0 tr) !! i) as [[q [a0|]]|] eqn:Ei; try (apply Hold; exact Hin).
    cbn [g_pend] in Hin. apply Hold. eapply elem_of_submseteq; [exact Hin|apply submseteq_delete].
Qed.

Lemma locked_sum_answer now s v : locked_sum (map to_lpj (get_all_locking_positions now s v)) = locked_power s v.
Proof.
  unfold locked_sum, locked_power. change (sum_by ?f (map to_lpj ?l)) with (sumN (map f (map to_lpj l))). rewrite map_map.
  change (sumN (map ?h ?l)) with (sum_by h l). unfold get_all_locking_positions.
  erewrite (sum_by_imap (fun i p => lp_to_json now i p) _ (fun p => if is_locked p then lp_vp p else 0)) by reflexivity.
  symmetry. apply sum_by_imap. reflexivity.
Qed.

(** ** C65 *)
Lemma mcall_keeps_votes c s o s' out v id u : VI s -> mcall c s o = Ok (s', out) ->
  get_my_vote s' v id = Ok (Some (v, u)) -> get_my_vote s v id = Ok (Some (v, u)).
Proof.
  intros HV Hc. destruct (remove_dec o) as [(id0 & ->)|Hn].
  - pose proof (VI_call _ _ _ _ _ HV Hc) as HV'. rewrite (my_vote_eq _ _ _ HV), (my_vote_eq _ _ _ HV').
    cbn [mcall] in Hc. apply remove_inv in Hc as (p & u0 & pv1 & _ & _ & _ & _ & Hu & Ev & _ & _ & _ & Es).
    destruct (decide (id = id0)) as [->|Hi].
    + assert (get_pvote s' id0 = pv1) as -> by (rewrite Es; apply pvote_set_eq). rewrite Ev.
      destruct (decide (v = c_pred c)) as [->|Hv]; [rewrite om_get_remove_eq by apply HV; discriminate|].
      rewrite om_get_remove_ne by (apply HV || congruence). auto.
    + assert (get_pvote s' id = get_pvote s id) as -> by (rewrite Es; apply pvote_set_ne; congruence). auto.
  - apply mcall_votes in Hc as [E1 E2]; [|exact Hn]. unfold get_my_vote, internal_has_voted. rewrite E2. auto.
Qed.

Lemma c65_vote a b g0 tr v id u :
  linked a b g0 tr -> get_my_vote (g_m (grun g0 tr)) v id = Ok (Some (v, u)) ->
  exists t1 c t2 i ts alt t3 q,
    tr = t1 ++ GCall c (VoteProposal id (vt_type u) (vt_memo u)) :: t2 ++ GQuery i ts false alt :: t3 /\
    c_pred c = v /\ get_proposal (g_m (grun g0 t1)) id = Ok q /\ in_window (now_ms c) q /\
    vt_power u = locked_power (g_mv (grun g0 (t1 ++ GCall c (VoteProposal id (vt_type u) (vt_memo u)) :: t2))) v.
Proof.
  revert v id u. induction tr as [|x tr IH] using rev_ind; intros v id u HL Hm.
  { destruct HL as (s0 & m0 & _ & Hm0 & -> & _). unfold mpip_new in Hm0. apply bind_Ok in Hm0 as (? & _ & Hm0). injection Hm0 as <-. discriminate Hm. }
  pose proof (linked_prefix _ _ _ _ _ HL) as HL'. pose proof (linked_reach _ _ _ _ HL') as Hr.
  set (g := grun g0 tr) in *.
  assert (Hold : get_my_vote (g_m g) v id = Ok (Some (v, u)) -> exists t1 c t2 i ts alt t3 q,
    tr ++ [x] = t1 ++ GCall c (VoteProposal id (vt_type u) (vt_memo u)) :: t2 ++ GQuery i ts false alt :: t3 /\
    c_pred c = v /\ get_proposal (g_m (grun g0 t1)) id = Ok q /\ in_window (now_ms c) q /\
    vt_power u = locked_power (g_mv (grun g0 (t1 ++ GCall c (VoteProposal id (vt_type u) (vt_memo u)) :: t2))) v).
  { intros H. destruct (IH v id u HL' H) as (t1 & c & t2 & i & ts & alt & t3 & q & E & R).
    exists t1, c, t2, i, ts, alt, (t3 ++ [x]), q. split; [|exact R]. rewrite E.
    rewrite <- app_assoc. cbn [app]. rewrite <- app_assoc. reflexivity. }
  rewrite grun_snoc in Hm. fold g in Hm.
  change (g_m (gstep g x)) with (w_m (proj (gstep g x))) in Hm. rewrite gstep_proj in Hm.
  destruct (mev_of g x) as [y|] eqn:Ey; [|apply Hold; exact Hm].
  pose proof (VI_reach _ _ Hr) as HV.
  destruct x as [x|c o|i ts f alt|i ts]; cbn [mev_of] in Ey; try discriminate.
  - injection Ey as <-. cbn [wstep] in Hm. destruct (mcall c (w_m (proj g)) o) as [[s' out]|] eqn:Hc; [|apply Hold; exact Hm].
    apply Hold. eapply mcall_keeps_votes; [exact HV|exact Hc|]. destruct out; exact Hm.
  - destruct (g_pend g !! i) as [[q [ans|]]|] eqn:Ei; try discriminate. injection Ey as <-.
    destruct (c46 (proj g) _ i ts ans Hr) as [(_ & _ & Hs)|(p & id0 & v0 & vt & memo & t & l & Hi & Hk & Ha & Hpos & Hv & _ & _ & Ho)].
    { rewrite Hs in Hm. apply Hold. exact Hm. }
    destruct (decide ((v, id) = (v0, id0))) as [Hx|Hne]; [|rewrite Ho in Hm by exact Hne; apply Hold; exact Hm].
    injection Hx as -> ->. rewrite Hv in Hm. injection Hm as <-. cbn [vt_type vt_memo vt_power].
    cbn [proj w_pend] in Hi. change (map fst (g_pend g)) with ((g_pend g).*1) in Hi. rewrite list_lookup_fmap, Ei in Hi. injection Hi as <-.
    pose proof (pend_origin_g _ _ _ _ _ _ HL' (elem_of_list_lookup_2 _ _ _ Ei)) as (t1 & c & o & t2 & E & Hc & Hans).
    subst ans. destruct Hans as (t3 & k & ts' & alt & t4 & -> & Hans).
    pose proof (mcall_asks _ _ _ _ _ Hc) as (_ & _ & _ & Hx). cbn [fst] in Hk. rewrite Hk in Hx.
    destruct Hx as (-> & -> & _ & Hask & _ & q0 & Hq0 & Hw). rewrite Hask in Hans. cbn [answer_of] in Hans. injection Hans as -> ->.
    exists t1, c, t3, k, ts', alt, (t4 ++ [GBack i ts]), q0. split.
    { rewrite E. rewrite <- app_assoc. cbn [app]. rewrite <- app_assoc. reflexivity. }
    split; [reflexivity|]. split; [exact Hq0|]. split; [apply in_window_iff; exact Hw|]. apply locked_sum_answer.
Qed.

Lemma back_entry g i ts y : mev_of g (GBack i ts) = Some y -> exists q ans, g_pend g !! i = Some (q, Some ans) /\
  y = MAnswer i ts ans /\ w_pend (proj g) !! i = Some q.
Proof.
  cbn [mev_of]. destruct (g_pend g !! i) as [[q [ans|]]|] eqn:Ei; try discriminate. intros [= <-]. exists q, ans.
  split; [reflexivity|]. split; [reflexivity|]. cbn [proj w_pend].
  change (map fst (g_pend g)) with ((g_pend g).*1). rewrite list_lookup_fmap, Ei. reflexivity.
Qed.

Lemma c65_quorum a b g0 tr id p q :
  linked a b g0 tr -> get_proposal (g_m (grun g0 tr)) id = Ok p -> pr_quorum p = Some q ->
  exists t1 c t2 i ts alt t3 j tb t4,
    tr = t1 ++ GCall c (StartVoting id) :: t2 ++ GQuery i ts false alt :: t3 ++ GBack j tb :: t4 /\
    pr_start p = Some (tb / 1000000) /\
    q = get_total_voting_power (g_mv (grun g0 (t1 ++ GCall c (StartVoting id) :: t2)))
        * m_floor (g_m (grun g0 (t1 ++ GCall c (StartVoting id) :: t2 ++ GQuery i ts false alt :: t3))) / 10000.
Proof.
  revert p q. induction tr as [|x tr IH] using rev_ind; intros p q HL Hp Hq.
  { destruct HL as (s0 & m0 & _ & Hm0 & -> & _). unfold mpip_new in Hm0. apply bind_Ok in Hm0 as (? & _ & Hm0). injection Hm0 as <-. discriminate Hp. }
  pose proof (linked_prefix _ _ _ _ _ HL) as HL'. set (g := grun g0 tr) in *.
  assert (Hold : forall p0, get_proposal (g_m g) id = Ok p0 -> pr_quorum p0 = Some q -> pr_start p = pr_start p0 ->
    exists t1 c t2 i ts alt t3 j tb t4,
    tr ++ [x] = t1 ++ GCall c (StartVoting id) :: t2 ++ GQuery i ts false alt :: t3 ++ GBack j tb :: t4 /\
    pr_start p = Some (tb / 1000000) /\
    q = get_total_voting_power (g_mv (grun g0 (t1 ++ GCall c (StartVoting id) :: t2)))
        * m_floor (g_m (grun g0 (t1 ++ GCall c (StartVoting id) :: t2 ++ GQuery i ts false alt :: t3))) / 10000).
  { intros p0 H H' Es. destruct (IH p0 q HL' H H') as (t1 & c & t2 & i & ts & alt & t3 & j & tb & t4 & E & Hs & R).
    exists t1, c, t2, i, ts, alt, t3, j, tb, (t4 ++ [x]). split; [|split; [congruence|exact R]]. rewrite E.
    rewrite <- app_assoc. cbn [app]. rewrite <- app_assoc. cbn [app]. rewrite <- app_assoc. reflexivity. }
  rewrite grun_snoc in Hp. fold g in Hp.
  change (g_m (gstep g x)) with (w_m (proj (gstep g x))) in Hp. rewrite gstep_proj in Hp.
  destruct (mev_of g x) as [y|] eqn:Ey; [|eapply Hold; eauto].
  pose proof (pevol_step (proj g) y id) as He. apply get_mpip_Ok in Hp. rewrite Hp in He.
  remember (om_get (m_proposals (w_m (proj g))) id) as op eqn:E1. remember (Some p) as op' eqn:E2.
  destruct He as [o0|c o p0 p' -> Hc|i ts k n t p0 -> Hi Hk Hb Hn|i ts k ct t l o0 -> Hi Hk Hmin Hid];
    [subst o0|injection E2 as ->|injection E2 as <-|injection E2 as <-].
  - eapply Hold; [apply get_mpip_Ok; symmetry; exact E1|exact Hq|reflexivity].
  - destruct (pcall_window _ _ _ _ _ _ Hc) as (W1 & W2 & W3).
    eapply Hold; [apply get_mpip_Ok; symmetry; exact E1|congruence|congruence].
  - destruct x as [x|c o|i' ts' f alt|i' ts']; try discriminate.
    apply back_entry in Ey as (q0 & ans & Ei & Ea & Ew). injection Ea as <- <- <-.
    assert (q0 = k) as -> by congruence.
    pose proof (pend_origin_g _ _ _ _ _ _ HL' (elem_of_list_lookup_2 _ _ _ Ei)) as (t1 & c & o & t2 & E & Hc & Hans).
    destruct Hans as (t3 & j & tq & alt & t4 & -> & Hans).
    pose proof (mcall_asks _ _ _ _ _ Hc) as (_ & _ & _ & Hx). rewrite Hk in Hx.
    destruct Hx as (-> & _ & Hask & _). rewrite Hask in Hans. cbn [answer_of] in Hans. injection Hans as -> ->.
    exists t1, c, t3, j, tq, alt, t4, i, ts, []. split.
    { rewrite E. rewrite <- app_assoc. cbn [app]. rewrite <- app_assoc. reflexivity. }
    cbn in Hq. injection Hq as <-. split; [reflexivity|]. rewrite <- E. reflexivity.
  - discriminate Hq.
Qed.

Lemma c65_create a b g0 tr id p :
  linked a b g0 tr -> get_proposal (g_m (grun g0 tr)) id = Ok p ->
  exists t1 c ct t2 i ts alt t3 j tb t4,
    tr = t1 ++ GCall c (CreateProposal ct) :: t2 ++ GQuery i ts false alt :: t3 ++ GBack j tb :: t4 /\
    c_signer c = pr_creator p /\
    m_min_vp (g_m (grun g0 (t1 ++ GCall c (CreateProposal ct) :: t2 ++ GQuery i ts false alt :: t3)))
      <= locked_power (g_mv (grun g0 (t1 ++ GCall c (CreateProposal ct) :: t2))) (c_pred c).
Proof.
  revert p. induction tr as [|x tr IH] using rev_ind; intros p HL Hp.
  { destruct HL as (s0 & m0 & _ & Hm0 & -> & _). unfold mpip_new in Hm0. apply bind_Ok in Hm0 as (? & _ & Hm0). injection Hm0 as <-. discriminate Hp. }
  pose proof (linked_prefix _ _ _ _ _ HL) as HL'. set (g := grun g0 tr) in *.
  assert (Hold : forall p0, get_proposal (g_m g) id = Ok p0 -> pr_creator p = pr_creator p0 ->
    exists t1 c ct t2 i ts alt t3 j tb t4,
    tr ++ [x] = t1 ++ GCall c (CreateProposal ct) :: t2 ++ GQuery i ts false alt :: t3 ++ GBack j tb :: t4 /\
    c_signer c = pr_creator p /\
    m_min_vp (g_m (grun g0 (t1 ++ GCall c (CreateProposal ct) :: t2 ++ GQuery i ts false alt :: t3)))
      <= locked_power (g_mv (grun g0 (t1 ++ GCall c (CreateProposal ct) :: t2))) (c_pred c)).
  { intros p0 H Es. destruct (IH p0 HL' H) as (t1 & c & ct & t2 & i & ts & alt & t3 & j & tb & t4 & E & Hs & R).
    exists t1, c, ct, t2, i, ts, alt, t3, j, tb, (t4 ++ [x]). split; [|split; [congruence|exact R]]. rewrite E.
    rewrite <- app_assoc. cbn [app]. rewrite <- app_assoc. cbn [app]. rewrite <- app_assoc. reflexivity. }
  rewrite grun_snoc in Hp. fold g in Hp.
  change (g_m (gstep g x)) with (w_m (proj (gstep g x))) in Hp. rewrite gstep_proj in Hp.
  destruct (mev_of g x) as [y|] eqn:Ey; [|eapply Hold; eauto].
  pose proof (pevol_step (proj g) y id) as He. apply get_mpip_Ok in Hp. rewrite Hp in He.
  remember (om_get (m_proposals (w_m (proj g))) id) as op eqn:E1. remember (Some p) as op' eqn:E2.
  destruct He as [o0|c o p0 p' -> Hc|i ts k n t p0 -> Hi Hk Hb Hn|i ts k ct t l o0 -> Hi Hk Hmin Hid];
    [subst o0|injection E2 as ->|injection E2 as <-|injection E2 as <-].
  - eapply Hold; [apply get_mpip_Ok; symmetry; exact E1|reflexivity].
  - destruct (pcall_id _ _ _ _ _ _ Hc) as (_ & W).
    eapply Hold; [apply get_mpip_Ok; symmetry; exact E1|congruence].
  - eapply Hold; [apply get_mpip_Ok; symmetry; exact E1|reflexivity].
  - destruct x as [x|c o|i' ts' f alt|i' ts']; try discriminate.
    apply back_entry in Ey as (q0 & ans & Ei & Ea & Ew). injection Ea as <- <- <-.
    assert (q0 = k) as -> by congruence.
    pose proof (pend_origin_g _ _ _ _ _ _ HL' (elem_of_list_lookup_2 _ _ _ Ei)) as (t1 & c & o & t2 & E & Hc & Hans).
    destruct Hans as (t3 & j & tq & alt & t4 & -> & Hans).
    pose proof (mcall_asks _ _ _ _ _ Hc) as (_ & Hsg & _ & Hx). rewrite Hk in Hx.
    destruct Hx as (-> & Hask & _). rewrite Hask in Hans. cbn [answer_of] in Hans. injection Hans as -> ->.
    exists t1, c, ct, t3, j, tq, alt, t4, i, ts, []. split.
    { rewrite E. rewrite <- app_assoc. cbn [app]. rewrite <- app_assoc. reflexivity. }
    split; [cbn; congruence|]. rewrite <- E. rewrite locked_sum_answer in Hmin. exact Hmin.
Qed.

(** ** C66: tokens that back a vote cannot leave before [T] *)
Definition late (T now : N) (p : lpos) : N := if exitp now p <=? T then 0 else lp_amount p.
Definition frozen (T now : N) (v : voter) : N := sum_by (late T now) (v_lps v).

Lemma late_mono T now now' p : now <= now' -> late T now p <= late T now' p.
Proof.
  intros H. unfold late, exitp. destruct (lp_unl p); [lia|].
  destruct (N.leb_spec (now' + days_to_millis (lp_days p)) T), (N.leb_spec (now + days_to_millis (lp_days p)) T); lia.
Qed.
Lemma frozen_mono T now now' v : now <= now' -> frozen T now v <= frozen T now' v.
Proof. intros H. apply sum_by_le. intros p _. apply late_mono; exact H. Qed.
Lemma late_app T now l p : sum_by (late T now) (l ++ [p]) = sum_by (late T now) l + late T now p.
Proof. rewrite sum_by_app, sum_by_cons, sum_by_nil. lia. Qed.
Definition unripe (T now amount days : N) : N := if now + days_to_millis days <=? T then 0 else amount.

Lemma dep1_frozen T now s v amount days v' :
  dep1 s v amount days v' -> frozen T now v' = frozen T now v + unripe T now amount days.
Proof.
  intros (vp & l' & _ & _ & Hd & _ & ->). unfold frozen. cbn [v_lps].
  destruct Hd as [(i & p & Hl & Hdy & Hu & _ & _ & ->)|(_ & _ & ->)].
  - pose proof (sum_by_insert (late T now) _ _ _ (mkLpos (lp_amount p + amount) days (lp_vp p + vp) None) Hl) as H.
    unfold late at 2 4, exitp in H. cbn [lp_amount lp_unl lp_days] in H. rewrite Hu, Hdy in H.
    unfold unripe. destruct (now + days_to_millis days <=? T); lia.
  - rewrite late_app. unfold late at 2, exitp, unripe. cbn [lp_amount lp_unl lp_days]. lia.
Qed.
Lemma deps_frozen T now s v l v' : deps s v l v' -> frozen T now v <= frozen T now v'.
Proof. induction 1 as [|v v1 v' lp l H1 _ IH]; [lia|]. rewrite (dep1_frozen T now _ _ _ _ _ H1) in IH. lia. Qed.
Lemma clears_frozen T now v v' : now <= T -> clears now v v' -> frozen T now v' = frozen T now v.
Proof.
  intros HT. induction 1 as [v|v v1 i p Hc IH Hl Hu Hb]; [reflexivity|]. rewrite <- IH. unfold frozen. cbn [v_lps].
  pose proof (sum_by_swap_remove (late T now) _ _ _ Hl) as H.
  assert (late T now p = 0) as E; [|lia].
  unfold late, exitp. unfold is_unlocked in Hu. destruct (lp_unl p) as [t|]; [|discriminate].
  apply N.ltb_lt in Hu. destruct (N.leb_spec (t + days_to_millis (lp_days p)) T); [reflexivity|lia].
Qed.

Lemma vchg_frozen T c s o s' e vid v v' :
  now_ms c <= T -> pastv (now_ms c) v -> vchg c s o s' e vid v v' ->
  (forall ext l, o = MirrorLps ext l -> pseudo_near_address ext <> vid) ->
  frozen T (now_ms c) v <= frozen T (now_ms c) v'.
Proof.
  intros HT Hp H Hmir. destruct H; set (now := now_ms c) in *.
  - match goal with H : dep1 _ _ _ _ _ |- _ => rewrite (dep1_frozen T now _ _ _ _ _ H) end. lia.
  - match goal with H : dep1 _ _ _ _ _ |- _ => rewrite (dep1_frozen T now _ _ _ _ _ H) end. lia.
  - eapply deps_frozen; eassumption.
  - (* unlock *)
    match goal with H : v_lps v !! i = Some p |- _ => rename H into Hl end.
    assert (Hpp : past now p) by (eapply Forall_lookup_1 in Hp; eauto). unfold frozen. cbn [v_lps].
    pose proof (sum_by_insert (late T now) _ _ _ (mkLpos (lp_amount p) (lp_days p) (lp_vp p) (Some now)) Hl) as K.
    assert (late T now p <= late T now (mkLpos (lp_amount p) (lp_days p) (lp_vp p) (Some now))); [|lia].
    unfold late, exitp, past in *. cbn [lp_unl lp_days lp_amount]. destruct (lp_unl p) as [t|]; [|lia].
    destruct (N.leb_spec (now + days_to_millis (lp_days p)) T), (N.leb_spec (t + days_to_millis (lp_days p)) T); lia.
  - (* partial unlock *)
    match goal with H : v_lps v !! i = Some p |- _ => rename H into Hl end.
    assert (Hpp : past now p) by (eapply Forall_lookup_1 in Hp; eauto). unfold frozen. cbn [v_lps]. rewrite late_app.
    pose proof (sum_by_insert (late T now) _ _ _ (mkLpos (lp_amount p - amount) (lp_days p) (lp_vp p - vp) (lp_unl p)) Hl) as K.
    assert (late T now p <= late T now (mkLpos (lp_amount p - amount) (lp_days p) (lp_vp p - vp) (lp_unl p))
            + late T now (mkLpos amount (lp_days p) vp (Some now))); [|lia].
    unfold late, exitp, past in *. cbn [lp_unl lp_days lp_amount]. destruct (lp_unl p) as [t|].
    + destruct (N.leb_spec (now + days_to_millis (lp_days p)) T), (N.leb_spec (t + days_to_millis (lp_days p)) T); lia.
    + destruct (N.leb_spec (now + days_to_millis (lp_days p)) T); lia.
  - (* extend *)
    match goal with H : v_lps v !! i = Some p |- _ => rename H into Hl end.
    match goal with H : lp_unl p = None |- _ => rename H into Hu end. unfold frozen. cbn [v_lps].
    pose proof (sum_by_insert (late T now) _ _ _ (mkLpos (lp_amount p) days nvp None) Hl) as K.
    assert (late T now p <= late T now (mkLpos (lp_amount p) days nvp None)); [|lia].
    unfold late, exitp, days_to_millis. cbn [lp_unl lp_days lp_amount]. rewrite Hu.
    destruct (N.leb_spec (now + days * 86400000) T), (N.leb_spec (now + lp_days p * 86400000) T); lia.
  - (* relock *)
    match goal with H : v_lps v !! i = Some p |- _ => rename H into Hl end.
    match goal with H : lp_unl p = Some _ |- _ => rename H into Hu end.
    match goal with H : dep1 _ _ _ _ _ |- _ => rewrite (dep1_frozen T now _ _ _ _ _ H) end. unfold frozen. cbn [v_lps].
    pose proof (sum_by_swap_remove (late T now) _ _ _ Hl) as K.
    assert (late T now p <= unripe T now (lp_amount p + afb) days); [|lia].
    unfold late, exitp, unripe. rewrite Hu.
    destruct (N.leb_spec (now + days_to_millis days) T), (N.leb_spec (started + days_to_millis (lp_days p)) T); try lia.
  - (* relock part of an unlocking position *)
    match goal with H : v_lps v !! i = Some p |- _ => rename H into Hl end.
    match goal with H : lp_unl p = Some _ |- _ => rename H into Hu end.
    match goal with H : dep1 _ _ _ _ _ |- _ => rewrite (dep1_frozen T now _ _ _ _ _ H) end. unfold frozen. cbn [v_lps].
    pose proof (sum_by_insert (late T now) _ _ _ (mkLpos (lp_amount p - afp) (lp_days p) nvp (lp_unl p)) Hl) as K.
    assert (late T now p <= late T now (mkLpos (lp_amount p - afp) (lp_days p) nvp (lp_unl p)) + unripe T now (afb + afp) days); [|lia].
    unfold late, exitp, unripe. cbn [lp_unl lp_days lp_amount]. rewrite Hu.
    destruct (N.leb_spec (now + days_to_millis days) T), (N.leb_spec (started + days_to_millis (lp_days p)) T); lia.
  - (* relock part of an unlocked position *)
    match goal with H : v_lps v !! i = Some p |- _ => rename H into Hl end.
    match goal with H : lp_unl p = Some _ |- _ => rename H into Hu end.
    match goal with H : dep1 _ _ _ _ _ |- _ => rewrite (dep1_frozen T now _ _ _ _ _ H) end. unfold frozen. cbn [v_lps].
    pose proof (sum_by_swap_remove (late T now) _ _ _ Hl) as K.
    assert (late T now p = 0); [|lia].
    unfold late, exitp. rewrite Hu. destruct (N.leb_spec (started + days_to_millis (lp_days p)) T); [reflexivity|lia].
  - match goal with H : dep1 _ _ _ _ _ |- _ => rewrite (dep1_frozen T now _ _ _ _ _ H) end. unfold frozen. cbn [v_lps]. lia.
  - match goal with H : clears _ _ _ |- _ => rewrite (clears_frozen T now _ _ HT H) end. lia.
  - match goal with H : clears _ _ _ |- _ => rewrite <- (clears_frozen T now _ _ HT H) end. unfold frozen. cbn [v_lps]. lia.
  - unfold frozen. cbn [v_lps]. lia.
  - match goal with H : same_lps _ _ |- _ => destruct H as [_ E] end. unfold frozen. rewrite E. lia.
  - exfalso. eapply Hmir; reflexivity.
Qed.

Lemma step_frozen T vid c o s s' e :
  now_ms c <= T -> NoDup (voters s).*1 -> pastv (now_ms c) (get_voter s vid) -> exec c s o = Ok (s', e) ->
  (forall ext l, o = MirrorLps ext l -> pseudo_near_address ext <> vid) ->
  NoDup (voters s').*1 /\ (pastv (now_ms c) (get_voter s' vid)) /\
  frozen T (now_ms c) (get_voter s vid) <= frozen T (now_ms c) (get_voter s' vid).
Proof.
  intros HT Hn Hp H Hm. pose proof H as Hx. apply exec_cases in H as [_ [K|(u & v' & Hst & Hch)]].
  - destruct K as (E1 & _). assert (get_voter s' vid = get_voter s vid) as -> by (unfold get_voter; rewrite E1; reflexivity).
    rewrite E1. split; [exact Hn|]. split; [exact Hp|lia].
  - destruct (store_get _ _ _ _ vid Hn Hst) as (Hn' & _ & Hoth & Hsame). split; [exact Hn'|].
    destruct (decide (vid = u)) as [->|Hne]; [|rewrite Hoth by exact Hne; split; [exact Hp|lia]].
    pose proof (vchg_frozen T _ _ _ _ _ _ _ _ HT Hp Hch Hm) as P2. pose proof (vchg_past _ _ _ _ _ _ _ _ _ (N.le_refl _) Hch Hp) as P1.
    destruct Hsame as [->|(-> & Hb & Hl)]; [auto|]. split; [constructor|].
    unfold frozen at 2 in P2. rewrite Hl, sum_by_nil in P2. lia.
Qed.

Lemma run_frozen T vid tr : forall s t t',
  timed tr -> Forall (fun x : call => t <= now_ms x.1 <= T) tr -> Forall (fun x : call => now_ms x.1 <= t') tr -> t <= t' ->
  Forall (fun x : call => forall ext l, x.2 = MirrorLps ext l -> pseudo_near_address ext <> vid) tr ->
  NoDup (voters s).*1 -> pastv t (get_voter s vid) ->
  frozen T t (get_voter s vid) <= frozen T t' (get_voter (run s tr) vid).
Proof.
  induction tr as [|x tr IH]; intros s t t' Ht Hf Hf2 Htt Hm Hn Hp; [apply frozen_mono; exact Htt|].
  apply Forall_cons in Hf as [[Hx1 Hx2] Hf]. apply Forall_cons in Hf2 as [Hx3 Hf2]. apply Forall_cons in Hm as [Hm1 Hm].
  assert (Ht' : timed tr) by (unfold timed in *; cbn [map] in Ht; inversion Ht; assumption).
  assert (Hf' : Forall (fun y : call => now_ms x.1 <= now_ms y.1 <= T) tr).
  { unfold timed in Ht. cbn [map] in Ht. apply Sorted_StronglySorted in Ht; [|intros ? ? ?; lia].
    apply StronglySorted_inv in Ht as [_ Hs]. apply Forall_forall. intros y Hy.
    rewrite List.Forall_forall in Hs. rewrite Forall_forall in Hf. specialize (Hf y Hy).
    assert (Hs' : c_ts x.1 <= c_ts y.1) by (apply Hs, (in_map (fun z : call => c_ts z.1)), elem_of_list_In; exact Hy).
    split; [|lia]. unfold now_ms. apply N.div_le_mono; [discriminate|exact Hs']. }
  change (run s (x :: tr)) with (run (step s x) tr). unfold step.
  destruct (exec x.1 s x.2) as [[s' e]|] eqn:E; [|apply IH; assumption].
  assert (Hp' : pastv (now_ms x.1) (get_voter s vid)) by (eapply past_mono; [|exact Hp]; lia).
  destruct (step_frozen T vid x.1 x.2 s s' e Hx2 Hn Hp' E Hm1) as (Hn' & Hp'' & Hle).
  specialize (IH s' (now_ms x.1) t' Ht' Hf' Hf2 Hx3 Hm Hn' Hp'').
  pose proof (frozen_mono T t (now_ms x.1) (get_voter s vid) Hx1). lia.
Qed.

(** ** Periods *)
Definition per (D : N) (x : call) : Prop :=
  match x.2 with
  | UpdateMinUnbond n => D <= n
  | MirrorLps _ l => Forall (fun lp : N * N => D <= lp.1) l
  | _ => True
  end.
Lemma zip_days (P : N -> Prop) l : Forall (fun lp : N * N => P lp.1) l -> forall vps : list N,
  Forall (fun p => P (lp_days p)) (zip_with (fun (lp : N * N) vp => mkLpos lp.2 lp.1 vp None) l vps).
Proof. induction 1 as [|lp l H _ IH]; intros [|vp vps]; constructor; [exact H|apply IH]. Qed.
Lemma min_unbond_step D c s o s' e : exec c s o = Ok (s', e) -> per D (c, o) -> D <= min_unbond s -> D <= min_unbond s'.
Proof.
  intros H Hq Hd. destruct (is_cfg_op o) eqn:Ef.
  - destruct o; try discriminate Ef; cbn [exec] in H; apply noeff_Ok in H as [H _];
    unfold set_stnear_contract, set_operator_id, set_owner_id, update_registration_cost,
      set_lock_in_vote_filters, set_prev_gov_contract, update_min_unbond_period, update_max_unbond_period in H; rinv;
      try exact Hd; exact Hq.
  - apply exec_cfg in H; [|exact Ef]. unfold cfg in H. assert (min_unbond s' = min_unbond s) as -> by congruence. exact Hd.
Qed.
Lemma days_at_least D a s0 tr vid :
  mv_new a = Ok s0 -> D <= i_min_unbond a -> Forall (per D) tr ->
  Forall (fun p => D <= lp_days p) (v_lps (get_voter (run s0 tr) vid)).
Proof.
  intros H0 Hd Hf. set (Q := fun v : voter => Forall (fun p => D <= lp_days p) (v_lps v)).
  enough (allv Q (run s0 tr) /\ D <= min_unbond (run s0 tr)) as ((_ & H) & _) by apply H.
  apply run_inv.
  { split; [eapply allv_init; [|exact H0]; intros w; constructor|]. unfold mv_new in H0. rinv. exact Hd. }
  intros [c o] s s' e Hin (Ha & Hm) Hx. cbn [fst snd] in Hx.
  rewrite List.Forall_forall in Hf. specialize (Hf _ Hin).
  split; [|eapply min_unbond_step; eassumption].
  eapply allv_exec; [intros w; constructor|exact Hx| |exact Ha].
  intros w v' Hch HQ.
  assert (Hc : (exists i days, o = ExtendDays i days) \/ (exists ext l, o = MirrorLps ext l) \/
    match o with ExtendDays _ _ | MirrorLps _ _ => False | _ => True end) by (destruct o; eauto).
  destruct Hc as [(i & days & ->)|[(ext & l & ->)|Hc]].
  - inversion Hch; subst; try (match goal with H : _ \/ _ |- _ => exfalso; revert H; clear; intros H; decompose [and or ex] H; discriminate end).
    unfold Q. cbn [v_lps]. apply Forall_insert; [exact HQ|]. cbn [lp_days].
    match goal with H : v_lps _ !! _ = Some ?p |- _ => pose proof (Forall_lookup_1 _ _ _ _ HQ H) as Hp; cbn beta in Hp end. lia.
  - inversion Hch; subst; try (match goal with H : _ \/ _ |- _ => exfalso; revert H; clear; intros H; decompose [and or ex] H; discriminate end).
    unfold Q. match goal with H : v_lps v' = _ |- _ => rewrite H end. apply (zip_days (fun d => D <= d)). exact Hf.
  - apply (vchg_days (fun d => D <= d) s (fun d (H : inb s d) => N.le_trans _ _ _ Hm (proj1 H)) _ _ _ _ _ _ _ Hch Hc HQ).
Qed.

Lemma past_run a s0 tr B vid : mv_new a = Ok s0 -> Forall (fun x : call => now_ms x.1 <= B) tr ->
  pastv B (get_voter (run s0 tr) vid).
Proof.
  intros H0 Hf. destruct (allv_run (pastv B) a s0 tr) as [_ H]; [intros w; constructor| |exact H0|apply H].
  intros c s o s' e w v' Hin _ Hch Hp. eapply vchg_past; [|exact Hch|exact Hp].
  rewrite List.Forall_forall in Hf. exact (Hf _ Hin).
Qed.

(** ** Time *)
Lemma gtimed_le tr1 tr2 x y : gtimed (tr1 ++ tr2) -> x ∈ tr1 -> y ∈ tr2 -> gev_ts x <= gev_ts y.
Proof.
  unfold gtimed. intros H Hx Hy. apply Sorted_StronglySorted in H; [|intros ? ? ?; lia].
  induction tr1 as [|z tr1 IH]; [inversion Hx|]. cbn [map app] in H. apply StronglySorted_inv in H as [H HF].
  apply elem_of_cons in Hx as [->|Hx]; [|apply IH; assumption].
  rewrite List.Forall_forall in HF. apply HF, in_map, in_app_iff. right. apply elem_of_list_In. exact Hy.
Qed.
Lemma in_mvs tr x : In x (mvs tr) -> In (GVote x) tr.
Proof. unfold mvs. rewrite in_flat_map. intros ([y| | |] & Hin & Hx); cbn in Hx; try destruct Hx as [->|[]]; try destruct Hx. exact Hin. Qed.
Lemma gtimed_mvs tr : gtimed tr -> timed (mvs tr).
Proof.
  unfold gtimed, timed. intros H. apply Sorted_StronglySorted in H; [|intros ? ? ?; lia]. apply StronglySorted_Sorted.
  induction tr as [|x tr IH]; [constructor|]. cbn [map] in H. apply StronglySorted_inv in H as [H HF]. specialize (IH H).
  destruct x as [x| | |]; cbn [mvs flat_map mv_of app]; try exact IH. cbn [map]. constructor; [exact IH|].
  apply List.Forall_forall. intros t Ht. apply in_map_iff in Ht as (y & <- & Hy). apply in_mvs in Hy.
  rewrite List.Forall_forall in HF. apply (HF (gev_ts (GVote y))), in_map. exact Hy.
Qed.
Lemma gtimed_app tr1 tr2 : gtimed (tr1 ++ tr2) -> gtimed tr1 /\ gtimed tr2.
Proof.
  unfold gtimed. rewrite map_app. intros H. apply Sorted_StronglySorted in H; [|intros ? ? ?; lia].
  induction (map gev_ts tr1) as [|z l IH]; cbn [app] in H; [split; [constructor|apply StronglySorted_Sorted, H]|].
  apply StronglySorted_inv in H as [H HF]. destruct (IH H) as [H1 H2]. split; [|exact H2].
  constructor; [exact H1|]. destruct l; constructor. cbn [app] in HF. inversion HF; assumption.
Qed.

Lemma sum_by_sub {A} `{EqDecision A} (f : A -> N) l : forall l', NoDup l -> (forall x, In x l -> ~ In x l' -> f x = 0) ->
  sum_by f l <= sum_by f l'.
Proof.
  induction l as [|x l IH]; intros l' Hn Hz; [rewrite sum_by_nil; lia|].
  apply NoDup_cons in Hn as [Hx Hn]. rewrite sum_by_cons.
  destruct (in_dec (fun a b => decide (a = b)) x l') as [Hi|Hi].
  - apply in_split in Hi as (l1 & l2 & ->).
    assert (Hle : sum_by f l <= sum_by f (l1 ++ l2)).
    { apply IH; [exact Hn|]. intros y Hy Hny. apply Hz; [right; exact Hy|].
      intros Hin. apply Hny. apply in_app_iff in Hin as [?|[<-|?]]; apply in_app_iff; auto.
      exfalso. apply Hx, elem_of_list_In. exact Hy. }
    rewrite !sum_by_app, sum_by_cons in *. lia.
  - rewrite (Hz x (or_introl eq_refl) Hi). apply IH; [exact Hn|]. intros y Hy. apply Hz. right. exact Hy.
Qed.

Lemma locked_amount_eq s v : locked_amount s v = sum_by (fun p => if is_locked p then lp_amount p else 0) (v_lps (get_voter s v)).
Proof. unfold locked_amount, get_all_locking_positions. apply sum_by_imap. reflexivity. Qed.
Lemma positions_amount_eq s v : positions_amount s v = sum_by lp_amount (v_lps (get_voter s v)).
Proof. unfold positions_amount, get_all_locking_positions. apply sum_by_imap. reflexivity. Qed.

Lemma backed a b g0 tr id T D v u :
  linked a b g0 tr -> gtimed tr -> Forall (fun x => gev_ts x / 1000000 <= T) tr ->
  D <= i_min_unbond a -> Forall (periods_at_least D) tr ->
  (forall c vt memo, In (GCall c (VoteProposal id vt memo)) tr -> T < now_ms c + D * 86400000) ->
  Forall (not_mirrored v) tr ->
  get_my_vote (g_m (grun g0 tr)) v id = Ok (Some (v, u)) ->
  exists t1 t2, tr = t1 ++ t2 /\ vt_power u = locked_power (g_mv (grun g0 t1)) v /\
    locked_amount (g_mv (grun g0 t1)) v <= positions_amount (g_mv (grun g0 tr)) v.
Proof.
  intros HL Ht HT HD Hper Hwin Hmir Hv.
  destruct (c65_vote _ _ _ _ _ _ _ HL Hv) as (t1 & c & t2 & i & ts & alt & t3 & q & E & Ec & _ & _ & Hpow).
  set (cv := GCall c (VoteProposal id (vt_type u) (vt_memo u))) in *. set (tq := GQuery i ts false alt) in *.
  set (l1 := t1 ++ cv :: t2) in *. assert (E' : tr = l1 ++ tq :: t3) by (rewrite E; unfold l1; rewrite <- app_assoc; reflexivity).
  exists l1, (tq :: t3). split; [exact E'|]. split; [exact Hpow|].
  assert (Hin : In cv tr) by (rewrite E; apply in_app_iff; right; left; reflexivity).
  specialize (Hwin _ _ _ Hin). destruct HL as (s0 & m0 & H1 & _ & -> & _ & _).
  rewrite E', grun_app, (grun_mv (tq :: t3)), !grun_mv. cbn [ginit g_mv].
  set (s := run s0 (mvs l1)). set (now := ts / 1000000).
  rewrite E' in Ht, HT, Hper, Hmir. apply Forall_app in HT as [HT1 HT2]. apply Forall_app in Hper as [Hper _].
  apply Forall_app in Hmir as [_ Hmir].
  assert (Hcv : now_ms c <= now).
  { unfold now, now_ms. apply N.div_le_mono; [discriminate|].
    apply (gtimed_le l1 (tq :: t3) cv tq Ht); [unfold l1; apply elem_of_app; right; left|left]. }
  assert (Hper' : Forall (per D) (mvs l1)).
  { apply List.Forall_forall. intros [c0 o] Hx. apply in_mvs in Hx. rewrite List.Forall_forall in Hper. specialize (Hper _ Hx).
    unfold per. cbn [snd]. cbn [periods_at_least] in Hper. destruct o; exact Hper. }
  pose proof (days_at_least D a s0 (mvs l1) v H1 HD Hper') as Hdays. fold s in Hdays.
  assert (Hpast : pastv now (get_voter s v)).
  { eapply past_run; [exact H1|]. apply List.Forall_forall. intros x Hx. apply in_mvs in Hx.
    unfold now, now_ms. apply N.div_le_mono; [discriminate|].
    apply (gtimed_le l1 (tq :: t3) (GVote x) tq Ht); [apply elem_of_list_In; exact Hx|left]. }
  destruct (gtimed_app _ _ Ht) as [_ Htt]. apply gtimed_mvs in Htt. change (mvs (tq :: t3)) with (mvs t3) in *.
  assert (Hlast : now <= T) by (apply Forall_cons in HT2 as [HT2 _]; exact HT2).
  assert (Hrun : frozen T now (get_voter s v) <= frozen T T (get_voter (run s (mvs t3)) v)).
  { apply run_frozen; try assumption.
    - apply Forall_forall. intros x Hx. apply elem_of_list_In in Hx. apply in_mvs in Hx. split.
      + unfold now, now_ms. apply N.div_le_mono; [discriminate|].
        destruct (gtimed_app _ _ Ht) as [_ Ht2]. apply (gtimed_le [tq] t3 tq (GVote x) Ht2); [left|apply elem_of_list_In; exact Hx].
      + apply Forall_cons in HT2 as [_ HT2]. rewrite List.Forall_forall in HT2. exact (HT2 _ Hx).
    - apply Forall_forall. intros x Hx. apply elem_of_list_In in Hx. apply in_mvs in Hx.
      apply Forall_cons in HT2 as [_ HT2]. rewrite List.Forall_forall in HT2. exact (HT2 _ Hx).
    - apply Forall_forall. intros [c0 o] Hx ext l Eo. apply elem_of_list_In in Hx. apply in_mvs in Hx. cbn [snd] in Eo. subst o.
      apply Forall_cons in Hmir as [_ Hmir]. rewrite List.Forall_forall in Hmir. exact (Hmir _ Hx).
    - apply (nodup_run a). exact H1. }
  rewrite locked_amount_eq, positions_amount_eq.
  etransitivity; [|etransitivity; [exact Hrun|]].
  - apply sum_by_le. intros p Hp. unfold late, exitp. unfold is_locked. destruct (lp_unl p); [lia|].
    rewrite List.Forall_forall in Hdays. specialize (Hdays p Hp).
    destruct (N.leb_spec (now + days_to_millis (lp_days p)) T) as [Hle|]; [|lia]. unfold days_to_millis in Hle. nia.
  - apply sum_by_le. intros p _. unfold late. destruct (_ <=? _); lia.
Qed.

Lemma c66 a b g0 tr id T D :
  linked a b g0 tr -> gtimed tr -> Forall (fun x => gev_ts x / 1000000 <= T) tr ->
  D <= i_min_unbond a -> Forall (periods_at_least D) tr ->
  (forall c vt memo, In (GCall c (VoteProposal id vt memo)) tr -> T < now_ms c + D * 86400000) ->
  let g := grun g0 tr in
  (forall v u, In (v, u) (listed (g_m g) id) -> Forall (not_mirrored v) tr) ->
  exists back : string -> N,
    (forall v u, In (v, u) (listed (g_m g) id) -> exists t1 t2, tr = t1 ++ t2 /\
       vt_power u = locked_power (g_mv (grun g0 t1)) v /\ back v = locked_amount (g_mv (grun g0 t1)) v /\
       back v <= positions_amount (g_mv g) v) /\
    sum_by (fun j => back j.1) (listed (g_m g) id) <= sum_by (positions_amount (g_mv g)) (voter_ids (g_mv g)).
Proof.
  intros HL Ht HT HD Hper Hwin g Hmir.
  pose proof (c40 _ _ (linked_reach _ _ _ _ HL)) as (Hnd & Hin & _). change (w_m (proj (grun g0 tr))) with (g_m g) in *.
  specialize (Hnd id). pose proof (fun v j => proj2 (Hin v id j)) as Hget. clear Hin.
  assert (Hb : forall v u, In (v, u) (listed (g_m g) id) -> exists t1 t2, tr = t1 ++ t2 /\
       vt_power u = locked_power (g_mv (grun g0 t1)) v /\ locked_amount (g_mv (grun g0 t1)) v <= positions_amount (g_mv g) v).
  { intros v u Hv. eapply backed; try eassumption; [eapply Hmir; exact Hv|]. apply Hget. split; [exact Hv|reflexivity]. }
  clear Hget Hmir.
  assert (Hex : exists back : string -> N, forall v u, In (v, u) (listed (g_m g) id) -> exists t1 t2, tr = t1 ++ t2 /\
       vt_power u = locked_power (g_mv (grun g0 t1)) v /\ back v = locked_amount (g_mv (grun g0 t1)) v /\
       back v <= positions_amount (g_mv g) v).
  { induction (listed (g_m g) id) as [|[v u] l IH]; [exists (fun _ => 0); intros ? ? []|].
    cbn [fmap list_fmap fst] in Hnd. apply NoDup_cons in Hnd as [Hv Hnd].
    destruct IH as (back & Hback); [exact Hnd|intros; apply Hb; right; assumption|].
    destruct (Hb v u (or_introl eq_refl)) as (t1 & t2 & E & Hp & Hle).
    exists (fun x => if decide (x = v) then locked_amount (g_mv (grun g0 t1)) v else back x).
    intros w z [[= <- <-]|Hw]; [rewrite decide_True by reflexivity; eauto 6|].
    rewrite decide_False; [apply Hback; exact Hw|]. intros ->. apply Hv, elem_of_list_In.
    apply (in_map fst) in Hw. exact Hw. }
  destruct Hex as (back & Hback). exists back. split; [exact Hback|].
  transitivity (sum_by (positions_amount (g_mv g)) (listed (g_m g) id).*1).
  - change (sum_by (positions_amount (g_mv g)) (listed (g_m g) id).*1) with (sumN (map (positions_amount (g_mv g)) (map fst (listed (g_m g) id)))).
    rewrite map_map. apply sum_by_le. intros [v u] Hv. destruct (Hback v u Hv) as (? & ? & _ & _ & _ & H). exact H.
  - apply sum_by_sub; [exact Hnd|]. intros v _ Hv. rewrite positions_amount_eq. unfold get_voter.
    destruct (om_get (voters (g_mv g)) v) as [x|] eqn:Ex; [|reflexivity].
    exfalso. apply Hv. apply om_get_Some_In in Ex. apply (in_map fst) in Ex. exact Ex.
Qed.
