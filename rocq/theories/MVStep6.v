(** MVStep6.v -- C72: votes and mirroring. *)

From Verif Require Export MVStep5.

Section Moves.
Context (P : string -> string -> Prop) (s : state) (G : good P s).

(** the accounts after the votes of [vid] have moved from [L] to [L'] *)
Lemma acct_moved s1 s' vid v1 v2 L L' :
  SInv P s' -> vexact P (hp_vp s) (hp_vv s) vid (v_vp (get_voter s vid)) L ->
  vmove P s s1 vid (get_voter s vid) v1 L L' ->
  voters s' = om_set (voters s) vid v2 -> v_vp v2 = v_vp v1 -> hp_vp s' = hp_vp s1 -> hp_vv s' = hp_vv s1 ->
  forall w, same_acct (acct_of s' w)
    (put vid (mkAcct true (v_bal v2) (map lpp (v_lps v2)) (v_avail v2) (used L') (lvotes L')) (acct_of s) w).
Proof.
  intros HS' HX Hm Ev Evp E2 E3 w.
  assert (Hgv : get_voter s' vid = v2) by (unfold get_voter; rewrite Ev, om_get_set_eq; reflexivity).
  assert (HX' : vexact P (hp_vp s') (hp_vv s') vid (v_vp (get_voter s' vid)) L').
  { rewrite Hgv, Evp, E2, E3. apply (vm_ex _ _ _ _ _ _ _ _ Hm). }
  rewrite acct_eq. destruct (decide (w = vid)) as [->|Hw].
  - rewrite put_eq. unfold same_acct. cbn [a_voter a_bal a_pos a_free a_used a_votes].
    split; [apply bool_decide_eq_true; unfold voter_ids; rewrite Ev; apply om_set_elem; auto|].
    rewrite (used_exact _ _ _ _ HS' HX'). rewrite Hgv.
    split; [reflexivity|]. split; [reflexivity|]. split; [reflexivity|]. split; [reflexivity|].
    intros x y. apply (votes_or0_exact _ _ _ _ _ _ HX').
  - rewrite put_ne by exact Hw. rewrite acct_eq.
    assert (Hg : get_voter s' w = get_voter s w) by (unfold get_voter; rewrite Ev, om_get_set_ne by congruence; reflexivity).
    destruct (si_ex _ _ (g_s _ _ G) w) as [Lw HXw].
    assert (HXw' : vexact P (hp_vp s') (hp_vv s') w (v_vp (get_voter s' w)) Lw).
    { rewrite Hg, E2, E3. eapply vexact_frame; [exact HXw|apply (vm_hp _ _ _ _ _ _ _ _ Hm); exact Hw|].
      intros b Hb. apply (vm_hv _ _ _ _ _ _ _ _ Hm). intros b2 Hb2 E. destruct (g_inj _ _ G _ _ _ _ Hb Hb2 E) as [? _]. contradiction. }
    rewrite Hg. unfold same_acct. cbn [a_voter a_bal a_pos a_free a_used a_votes].
    split. { apply bool_decide_ext. unfold voter_ids. rewrite Ev, om_set_elem. split; [intros [?|?]; [assumption|congruence]|auto]. }
    split; [reflexivity|]. split; [reflexivity|]. split; [reflexivity|].
    split; [rewrite (used_exact _ _ _ _ HS' HXw'), (used_exact _ _ _ _ (g_s _ _ G) HXw); reflexivity|].
    intros x y. rewrite (votes_or0_exact _ _ _ _ _ _ HXw'), (votes_or0_exact _ _ _ _ _ _ HXw). reflexivity.
Qed.

Lemma same_moved s1 s' vid v' L L' addr obj n :
  SInv P s' -> om_get (voters s) vid = Some (get_voter s vid) ->
  vexact P (hp_vp s) (hp_vv s) vid (v_vp (get_voter s vid)) L ->
  vmove P s s1 vid (get_voter s vid) v' L L' -> s' = save_voter s1 vid v' ->
  v_avail v' + n = v_avail (get_voter s vid) + lvotes L addr obj ->
  (forall a o, lvotes L' a o = if decide (a = addr /\ o = obj) then n else lvotes L a o) ->
  same (observe s') (set_votes vid addr obj n (observe s)).
Proof.
  intros HS' Hv HX Hm Es Hav Hlv. pose proof (vm_st _ _ _ _ _ _ _ _ Hm) as (vs & hv & hp & E1).
  assert (Ev : voters s' = om_set (voters s) vid v') by (rewrite Es, E1; reflexivity).
  assert (Hold : votes_or0 s vid addr obj = lvotes L addr obj) by apply (votes_or0_exact _ _ _ _ _ _ HX).
  pose proof (vm_pow _ _ _ _ _ _ _ _ Hm) as Hpow. pose proof (used_ge L addr obj) as Hge.
  apply same_of; try (rewrite Es, E1; reflexivity).
  - intros w. eapply same_acct_trans.
    { eapply (acct_moved s1 s' vid v' v' L L'); [exact HS'|exact HX|exact Hm|exact Ev|reflexivity|rewrite Es; reflexivity..]. }
    unfold set_votes, on. cbn [l_acct set]. destruct (decide (w = vid)) as [->|Hw].
    + rewrite !put_eq. change (l_acct (observe s) vid) with (acct_of s vid). rewrite acct_eq.
      unfold same_acct. cbn [a_voter a_bal a_pos a_free a_used a_votes set]. rewrite Hold, (used_exact _ _ _ _ (g_s _ _ G) HX).
      split. { symmetry. apply bool_decide_eq_true. unfold voter_ids. eapply om_get_Some_key. exact Hv. }
      split; [apply (vm_bal _ _ _ _ _ _ _ _ Hm)|]. split; [f_equal; apply (vm_lps _ _ _ _ _ _ _ _ Hm)|].
      split; [lia|]. split; [lia|]. intros x y. rewrite Hlv. unfold put2. destruct (decide _); [reflexivity|].
      symmetry. apply (votes_or0_exact _ _ _ _ _ _ HX).
    + rewrite !put_ne by exact Hw. apply same_acct_refl.
  - intros x y. change (l_tally (observe s') x y) with (get_total_votes s' x y).
    change (l_tally (set_votes vid addr obj n (observe s)) x y) with
      (put2 addr obj (get_total_votes s addr obj + n - votes_or0 s vid addr obj) (get_total_votes s) x y).
    assert (Ht : get_total_votes s' x y + lvotes L x y = get_total_votes s x y + lvotes L' x y).
    { rewrite <- (vm_tot _ _ _ _ _ _ _ _ Hm x y). rewrite Es. reflexivity. }
    unfold put2. rewrite Hold. rewrite Hlv in Ht. destruct (decide _) as [[-> ->]|]; lia.
Qed.

(** the votes dropped by mirroring *)
Lemma mirror_loop_gone fuel : forall s vid v u new L s' v' u',
  vexact P (hp_vp s) (hp_vv s) vid (v_vp v) L -> votes_nd s -> u = used L ->
  mirror_loop fuel s vid v u new = Ok (s', v', u') ->
  exists L' gone, vmove P s s' vid v v' L L' /\ u' = used L' /\ NoDup gone /\
    (forall x, x ∈ gone -> 0 < lvotes L x.1 x.2) /\
    (forall a o, lvotes L' a o = if decide ((a, o) ∈ gone) then 0 else lvotes L a o) /\
    (forall r x, gone = r ++ [x] -> new < used L - sum_by (fun x => lvotes L x.1 x.2) r) /\
    used L' + sum_by (fun x => lvotes L x.1 x.2) gone = used L /\ u' <= new.
Proof.
  induction fuel as [|fuel IH]; intros t vid v u new L s' v' u' HX Hnd Hu H; simpl in H;
    destruct (new <? u) eqn:Elt; nb; try discriminate.
  1,3: injection H as <- <- <-; exists L, []; (split; [apply vmove_refl; assumption|]); (split; [exact Hu|]);
    (split; [constructor|]); (split; [intros x Hx; inversion Hx|]);
    (split; [intros a o; rewrite decide_False; [reflexivity|intros Hx; inversion Hx]|]);
    (split; [intros [|? r] x E; discriminate|]); rewrite sum_by_nil; (split; lia).
  apply bind_Ok in H as (ok & Hok & H). apply bind_Ok in H as (addr & Hadr & H). apply expect_Ok in Hadr. subst ok.
  apply bind_Ok in H as (oh & Hoh & H). apply bind_Ok in H as (h & Hh & H). apply expect_Ok in Hh. subst oh.
  apply bind_Ok in H as (oo & Hoo & H). apply bind_Ok in H as (obj & Hobj & H). apply expect_Ok in Hobj. subst oo.
  apply bind_Ok in H as (ov & Hov & H). apply bind_Ok in H as (x & Hx & H). apply expect_Ok in Hx. subst ov.
  apply bind_Ok in H as ([s1 v1] & Hrm & H). apply bind_Ok in H as (u1 & Hu1 & H).
  apply sub128_Ok in Hu1 as [-> Hle].
  rewrite (ve_uget_outer P _ _ _ _ _ HX) in Hoh. injection Hoh as Hoh.
  assert (HP : P vid addr).
  { apply (ve_P _ _ _ _ _ _ HX). destruct (om_get L addr) as [[hh m]|] eqn:E; [|discriminate].
    eapply om_get_Some_key; exact E. }
  assert (Hlx : lvotes L addr obj = x).
  { pose proof (ve_uget_inner P _ _ _ _ _ HX _ obj HP) as Hui. unfold ihand in Hui. rewrite Hoh in Hui.
    cbn in Hui. rewrite Hov in Hui. injection Hui as Hui. rewrite lvotes_imap, <- Hui. reflexivity. }
  destruct (remove_vp_exact P _ _ _ _ _ _ _ _ HX Hnd HP Hrm) as (L1 & Hm1 & Hpos & Hav & Hus & Hlv & h1 & EL1).
  assert (Hu1 : u - x = used L1) by lia.
  destruct (IH _ _ _ _ _ _ _ _ _ (vm_ex _ _ _ _ _ _ _ _ Hm1) (vm_nd _ _ _ _ _ _ _ _ Hm1) Hu1 H)
    as (L' & gone & Hm & Hu' & Hgd & Hgp & Hgl & Hgm & Hgs & Hnew).
  assert (Hni : (addr, obj) ∉ gone).
  { intros Hi. apply Hgp in Hi. cbn [fst snd] in Hi. rewrite Hlv, decide_True in Hi by auto. lia. }
  assert (Hother : forall z, z <> (addr, obj) -> lvotes L1 z.1 z.2 = lvotes L z.1 z.2).
  { intros [a o] Hz. cbn [fst snd]. rewrite Hlv, decide_False; [reflexivity|]. intros [-> ->]. contradiction. }
  assert (Hsum : forall r, (addr, obj) ∉ r -> sum_by (fun x => lvotes L1 x.1 x.2) r = sum_by (fun x => lvotes L x.1 x.2) r).
  { intros r Hr. apply sum_by_ext. intros z Hz. apply Hother. intros ->. apply Hr. apply elem_of_list_In. exact Hz. }
  exists L', ((addr, obj) :: gone). split; [eapply vmove_trans; eassumption|]. split; [exact Hu'|].
  split; [constructor; assumption|].
  split. { intros z Hz. apply elem_of_cons in Hz as [->|Hz]; [exact Hpos|]. rewrite <- Hother; [apply Hgp; exact Hz|congruence]. }
  split. { intros a o. rewrite Hgl. destruct (decide ((a, o) ∈ gone)) as [Hi|Hi].
    - rewrite decide_True by (apply elem_of_cons; auto). reflexivity.
    - rewrite Hlv. destruct (decide (a = addr /\ o = obj)) as [[-> ->]|Hne].
      + rewrite decide_True by (apply elem_of_cons; auto). reflexivity.
      + rewrite decide_False; [reflexivity|]. intros Hx. apply elem_of_cons in Hx as [Hx|Hx]; [|contradiction]. injection Hx as -> ->. auto. }
  split. { intros [|z r] w E.
    - rewrite sum_by_nil. lia.
    - cbn in E. injection E as <- E. specialize (Hgm r w E). rewrite Hsum in Hgm.
      2:{ intros Hi. apply Hni. rewrite E. apply elem_of_app. auto. }
      rewrite sum_by_cons. cbn [fst snd]. lia. }
  rewrite sum_by_cons. cbn [fst snd]. rewrite Hsum in Hgs by exact Hni. split; [lia|exact Hnew].
Qed.
End Moves.

Lemma powers_of l : forall vps, mapMr (fun lp => calculate_voting_power lp.2 lp.1) l = Ok vps ->
  vps = map (fun lp => power lp.1 lp.2) l.
Proof.
  induction l as [|lp l IH]; intros vps H; cbn [mapMr] in H; [injection H as <-; reflexivity|].
  apply bind_Ok in H as (p & Hp & H). apply bind_Ok in H as (q & Hq & H). injection H as <-.
  apply power_calc in Hp as ->. rewrite (IH _ Hq). reflexivity.
Qed.

Section Step6.
Context (P : string -> string -> Prop) (s : state) (G : good P s) (c : ctx).
Notation me := (c_pred c).

Lemma step_votes o s' e : tgt P c o -> SInv P s' -> exec c s o = Ok (s', e) ->
  match o with
  | Vote _ _ _ | Rebalance _ _ _ | Unvote _ _ | VoteDelegated _ _ _ _ | UnvoteDelegated _ _ _ => same (observe s') (next c (observe s) o)
  | _ => True
  end.
Proof.
  intros Ht HS' H. pose proof (g_s _ _ G) as HS.
  destruct o; try exact I; cbn [exec] in H; apply noeff_Ok in H as [H _]; cbn [tgt] in Ht; cbn [next].
  - unfold vote in H. apply bind_Ok in H as (? & _ & H). destruct Ht as [HP Hz].
    apply (vote_exact P) in H as (s1 & v' & L & L' & Hv & HX & Hm & Es & Hle & Hav & Hlv); [|exact HS|exact HP|lia].
    change (a_votes (l_acct (observe s) me) addr obj) with (votes_or0 s me addr obj). rewrite (votes_or0_exact _ _ _ _ _ _ HX).
    eapply (same_moved P s G); [exact HS'|exact Hv|exact HX|exact Hm|exact Es|lia|].
    intros a o. rewrite Hlv. destruct (decide _) as [[-> ->]|]; lia.
  - apply (rebalance_exact P) in H as (s1 & v' & L & L' & Hv & HX & Hm & Es & _ & _ & Hav & _ & Hlv); [|exact HS].
    eapply (same_moved P s G); [exact HS'|exact Hv|exact HX|exact Hm|exact Es|exact Hav|exact Hlv].
  - unfold unvote in H. apply bind_Ok in H as (? & _ & H).
    apply (unvote_exact P) in H as (s1 & v' & L & L' & Hv & HX & Hm & Es & _ & _ & Hav & Hlv); [|exact HS].
    eapply (same_moved P s G); [exact HS'|exact Hv|exact HX|exact Hm|exact Es|lia|exact Hlv].
  - unfold vote_delegated in H. apply bind_Ok in H as (? & _ & H). apply bind_Ok in H as (w & Hw & H). apply (verify_inv _ _ _ _ (g_d _ _ G)) in Hw as [_ ->]. destruct Ht as [HP Hz].
    apply (vote_exact P) in H as (s1 & v' & L & L' & Hv & HX & Hm & Es & Hle & Hav & Hlv); [|exact HS|exact HP|lia].
    change (pseudo_near_address evm) with (evm_account evm) in *.
    change (a_votes (l_acct (observe s) (evm_account evm)) addr obj) with (votes_or0 s (evm_account evm) addr obj). rewrite (votes_or0_exact _ _ _ _ _ _ HX).
    eapply (same_moved P s G); [exact HS'|exact Hv|exact HX|exact Hm|exact Es|lia|].
    intros a o. rewrite Hlv. destruct (decide _) as [[-> ->]|]; lia.
  - unfold unvote_delegated in H. apply bind_Ok in H as (? & _ & H). apply bind_Ok in H as (w & Hw & H). apply (verify_inv _ _ _ _ (g_d _ _ G)) in Hw as [_ ->].
    apply (unvote_exact P) in H as (s1 & v' & L & L' & Hv & HX & Hm & Es & _ & _ & Hav & Hlv); [|exact HS].
    eapply (same_moved P s G); [exact HS'|exact Hv|exact HX|exact Hm|exact Es|lia|exact Hlv].
Qed.

Lemma step_mirror ext l s' e : SInv P s' -> exec c s (MirrorLps ext l) = Ok (s', e) ->
  becomes c (observe s) (MirrorLps ext l) (observe s').
Proof.
  intros HS' H. pose proof (g_s _ _ G) as HS. cbn [exec] in H. apply noeff_Ok in H as [H _].
  pose proof (mirror_inv _ _ _ _ _ _ _ (si_inv _ _ HS) H)
    as (Lw & Lw' & vps & v1 & s1 & Hop & Hd & Hrw & Hpw & _ & Hvps & Hlen & Hloop & _ & Hrw' & _ & _ & Hle & Ht & _ & Es).
  change (pseudo_near_address ext) with (evm_account ext) in *. set (vid := evm_account ext) in *.
  destruct (si_ex _ _ HS vid) as [L HX].
  assert (used Lw = used L) as EL.
  { rewrite <- (used_raw_rep _ _ _ _ _ Hrw), <- (used_raw_rep _ _ _ _ _ (ve_rep _ _ _ _ _ _ HX)). reflexivity. }
  rewrite EL in *.
  destruct (mirror_loop_gone P _ _ _ _ _ _ _ _ _ _ HX (si_nd _ _ HS) eq_refl Hloop)
    as (L' & gone & Hm & Hu' & Hgd & Hgp & Hgl & Hgm & Hgs & Hnew).
  apply powers_of in Hvps. 
  assert (Esum : sumN vps = sum_by (fun lp => power lp.1 lp.2) l) by (rewrite Hvps; reflexivity).
  rewrite Esum in *. rewrite Hu' in *.
  assert (Ea : forall x y, a_votes (l_acct (observe s) vid) x y = lvotes L x y) by (intros x y; apply (votes_or0_exact _ _ _ _ _ _ HX)).
  assert (Eu : a_used (l_acct (observe s) vid) = used L) by apply (used_exact _ _ _ _ HS HX).
  assert (Eg : forall r, gone_power (l_acct (observe s) vid) r = sum_by (fun x => lvotes L x.1 x.2) r).
  { intros r. apply sum_by_ext. intros x _. apply Ea. }
  cbn [becomes]. fold vid. exists gone. split.
  { unfold must_go. rewrite Eu. split; [exact Hgd|]. split; [intros x Hx; rewrite Ea; apply Hgp; exact Hx|].
    split; [intros r x E; rewrite Eg; eapply Hgm; exact E|]. rewrite Eg. lia. }
  pose proof (vm_st _ _ _ _ _ _ _ _ Hm) as (vs & hv & hp & E1).
  set (v2 := mkVoter _ _ _ _) in Es.
  assert (Ev : voters s' = om_set (voters s) vid v2) by (rewrite Es, E1; reflexivity).
  assert (Hu2 : used L - sum_by (fun x => lvotes L x.1 x.2) gone = used L') by lia.
  apply same_of; try (rewrite Es, E1; reflexivity).
  - intros w. eapply same_acct_trans.
    { eapply (acct_moved P s G s1 s' vid v1 v2 L L'); [exact HS'|exact HX|exact Hm|exact Ev|reflexivity|rewrite Es; reflexivity..]. }
    unfold mirror_to. cbn [l_acct set]. destruct (decide (w = vid)) as [->|Hw].
    + rewrite !put_eq, Eu, Eg, Hu2. unfold same_acct. cbn [a_voter a_bal a_pos a_free a_used a_votes v2 v_bal v_lps v_avail].
      split; [reflexivity|]. split; [reflexivity|]. split.
      { rewrite Hvps. clear. induction l as [|lp l IH]; [reflexivity|]. cbn [map zip_with]. f_equal. exact IH. }
      split; [reflexivity|]. split; [reflexivity|]. intros x y. rewrite Hgl, Ea. reflexivity.
    + rewrite !put_ne by exact Hw. apply same_acct_refl.
  - unfold nums. rewrite Es, E1. rewrite Hpw.
    change (total_vp s + sum_by (fun lp => power lp.1 lp.2) l - (v_avail (get_voter s vid) + used L), uncl_mp s, accum_mp s, uncl_st s, accum_st s) with
      (total_vp s + sum_by (fun lp => power lp.1 lp.2) l - (v_avail (get_voter s vid) + used L), uncl_mp s, accum_mp s, uncl_st s, accum_st s).
    unfold mirror_to. cbn [l_power l_mp_total l_mp_ever l_st_total l_st_ever set]. rewrite Eu. reflexivity.
  - intros x y. change (l_tally (observe s') x y) with (get_total_votes s' x y).
    assert (Htt : get_total_votes s' x y + lvotes L x y = get_total_votes s x y + lvotes L' x y).
    { rewrite <- (vm_tot _ _ _ _ _ _ _ _ Hm x y). rewrite Es. reflexivity. }
    unfold mirror_to. cbn [l_tally set]. change (l_tally (observe s) x y) with (get_total_votes s x y). rewrite Ea.
    rewrite Hgl in Htt. destruct (decide _); lia.
Qed.
End Step6.
