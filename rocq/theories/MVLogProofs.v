(** MVLogProofs.v -- C80: the log tells the votes. *)

From Verif Require Export MVStep7 MVBatch MVSpecLog.

Lemma told_all_app ls1 ls2 f : told_all (ls1 ++ ls2) f = told_all ls2 (told_all ls1 f).
Proof. apply fold_left_app. Qed.

Lemma told_ext l f g : (forall w a o, f w a o = g w a o) -> forall w a o, told f l w a o = told g l w a o.
Proof. intros H w a o. destruct l; cbn [told]; try apply H; unfold entry; destruct (decide _); rewrite ?H; auto. Qed.
Lemma told_all_ext ls : forall f g, (forall w a o, f w a o = g w a o) -> forall w a o, told_all ls f w a o = told_all ls g w a o.
Proof. induction ls as [|l ls IH]; intros f g H; [exact H|]. cbn [told_all fold_left]. apply IH. apply told_ext. exact H. Qed.

Lemma log_of_snoc s tr x : log_of s (tr ++ [x]) = log_of s tr ++ logs_of (run s tr) x.
Proof.
  revert s. induction tr as [|y tr IH]; intros s; cbn [app log_of].
  - rewrite app_nil_r. reflexivity.
  - rewrite IH, <- app_assoc. reflexivity.
Qed.

(** ** Calls that are no votes write no lines about votes *)
Lemma quiet c s o f : is_vote_op o = false -> told_all (logs c s o) f = f.
Proof.
  intros Ho. destruct o; try discriminate Ho; try reflexivity; cbn [logs].
  - unfold unlock_partial_log. destruct (_ !! _); [|reflexivity]. destruct (_ =? _); reflexivity.
  - unfold withdraw_log. destruct (match l with [] => _ | _ => _ end); [|reflexivity]. destruct (voter_is_empty _); reflexivity.
  - unfold withdraw_log. destruct (match unlocked_indexes _ _ with [] => _ | _ => _ end); [|reflexivity]. destruct (voter_is_empty _); reflexivity.
  - destruct ok; reflexivity.
  - destruct ok; reflexivity.
  - unfold deposit_log. destruct (msg_is_for_claims msg) as [[]|]; try reflexivity;
      (destruct (msg_is_pair msg) as [[]|]; [destruct (c_json_pair c msg); reflexivity|reflexivity..]).
Qed.

Section Log.
Context (P : string -> string -> Prop).

(** the dropped objects, as the loop reports them *)
Lemma dropped_loop fuel : forall s vid v u new L s' v' u',
  vexact P (hp_vp s) (hp_vv s) vid (v_vp v) L -> votes_nd s -> u = used L ->
  mirror_loop fuel s vid v u new = Ok (s', v', u') ->
  exists L' gone, mirror_dropped fuel s vid v u new = Ok gone /\ vmove P s s' vid v v' L L' /\ u' = used L' /\ NoDup gone /\
    (forall x, x ∈ gone -> 0 < lvotes L x.1 x.2) /\
    (forall a o, lvotes L' a o = if decide ((a, o) ∈ gone) then 0 else lvotes L a o) /\
    used L' + sum_by (fun x => lvotes L x.1 x.2) gone = used L /\ u' <= new.
Proof.
  induction fuel as [|fuel IH]; intros t vid v u new L s' v' u' HX Hnd Hu H; simpl in H; cbn [mirror_dropped];
    destruct (new <? u) eqn:Elt; nb; try discriminate.
  1,3: injection H as <- <- <-; exists L, []; (split; [reflexivity|]); (split; [apply vmove_refl; assumption|]); (split; [exact Hu|]);
    (split; [constructor|]); (split; [intros x Hx; inversion Hx|]);
    (split; [intros a o; rewrite decide_False; [reflexivity|intros Hx; inversion Hx]|]);
    rewrite sum_by_nil; (split; lia).
  apply bind_Ok in H as (ok & Hok & H). apply bind_Ok in H as (addr & Hadr & H). apply expect_Ok in Hadr. subst ok.
  apply bind_Ok in H as (oh & Hoh & H). apply bind_Ok in H as (h & Hh & H). apply expect_Ok in Hh. subst oh.
  apply bind_Ok in H as (oo & Hoo & H). apply bind_Ok in H as (obj & Hobj & H). apply expect_Ok in Hobj. subst oo.
  apply bind_Ok in H as (ov & Hov & H). apply bind_Ok in H as (x & Hx & H). apply expect_Ok in Hx. subst ov.
  apply bind_Ok in H as ([s1 v1] & Hrm & H). apply bind_Ok in H as (u1 & Hu1 & H).
  pose proof Hu1 as Hs1. apply sub128_Ok in Hu1 as [-> Hle].
  pose proof Hoh as Hoh0.
  rewrite (ve_uget_outer P _ _ _ _ _ HX) in Hoh. injection Hoh as Hoh.
  assert (HP : P vid addr).
  { apply (ve_P _ _ _ _ _ _ HX). destruct (om_get L addr) as [[hh m]|] eqn:E; [|discriminate].
    eapply om_get_Some_key; exact E. }
  assert (Hlx : lvotes L addr obj = x).
  { pose proof (ve_uget_inner P _ _ _ _ _ HX _ obj HP) as Hui. unfold ihand in Hui. rewrite Hoh in Hui.
    cbn in Hui. rewrite Hov in Hui. injection Hui as Hui. rewrite lvotes_imap, <- Hui. reflexivity. }
  destruct (remove_vp_exact P _ _ _ _ _ _ _ _ HX Hnd HP Hrm) as (L1 & Hm1 & Hpos & Hav & Hus & Hlv & h1 & EL1).
  assert (Hu1 : u - x = used L1) by lia.
  destruct (IH _ _ _ _ _ _ _ _ _ (vm_ex _ _ _ _ _ _ _ _ Hm1) (vm_nd _ _ _ _ _ _ _ _ Hm1) Hu1 H)
    as (L' & gone & Hd & Hm & Hu' & Hgd & Hgp & Hgl & Hgs & Hnew).
  assert (Hni : (addr, obj) ∉ gone).
  { intros Hi. apply Hgp in Hi. cbn [fst snd] in Hi. rewrite Hlv, decide_True in Hi by auto. lia. }
  assert (Hother : forall z, z <> (addr, obj) -> lvotes L1 z.1 z.2 = lvotes L z.1 z.2).
  { intros [a o] Hz. cbn [fst snd]. rewrite Hlv, decide_False; [reflexivity|]. intros [-> ->]. contradiction. }
  assert (Hsum : forall r, (addr, obj) ∉ r -> sum_by (fun x => lvotes L1 x.1 x.2) r = sum_by (fun x => lvotes L x.1 x.2) r).
  { intros r Hr. apply sum_by_ext. intros z Hz. apply Hother. intros ->. apply Hr. apply elem_of_list_In. exact Hz. }
  exists L', ((addr, obj) :: gone). split.
  { rewrite Hok. rewrite go. cbn [expect]. rewrite go, Hoh0, go. cbn [expect]. rewrite go, Hoo, go. cbn [expect]. rewrite go, Hov, go.
    cbn [expect]. rewrite go, Hrm, go, Hs1, go, Hd, go. reflexivity. }
  split; [eapply vmove_trans; eassumption|]. split; [exact Hu'|].
  split; [constructor; assumption|].
  split. { intros z Hz. apply elem_of_cons in Hz as [->|Hz]; [exact Hpos|]. rewrite <- Hother; [apply Hgp; exact Hz|congruence]. }
  split. { intros a o. rewrite Hgl. destruct (decide ((a, o) ∈ gone)) as [Hi|Hi].
    - rewrite decide_True by (apply elem_of_cons; auto). reflexivity.
    - rewrite Hlv. destruct (decide (a = addr /\ o = obj)) as [[-> ->]|Hne].
      + rewrite decide_True by (apply elem_of_cons; auto). reflexivity.
      + rewrite decide_False; [reflexivity|]. intros Hx. apply elem_of_cons in Hx as [Hx|Hx]; [|contradiction]. injection Hx as -> ->. auto. }
  rewrite sum_by_cons. cbn [fst snd]. rewrite Hsum in Hgs by exact Hni. split; [lia|exact Hnew].
Qed.

(** lines dropping [gone] *)
Lemma told_gone vid gone : forall f w a o,
  told_all (map (fun x => LUnvote vid x.2 x.1) gone) f w a o =
  if decide (w = vid /\ (a, o) ∈ gone) then 0 else f w a o.
Proof.
  induction gone as [|[a1 o1] gone IH]; intros f w a o; cbn [map told_all fold_left].
  - rewrite decide_False; [reflexivity|]. intros [_ H]. inversion H.
  - change (told_all (map (fun x => LUnvote vid x.2 x.1) gone) (told f (LUnvote vid o1 a1)) w a o =
      if decide (w = vid /\ (a, o) ∈ (a1, o1) :: gone) then 0 else f w a o).
    rewrite IH. cbn [told fst snd]. unfold entry.
    destruct (decide (w = vid /\ (a, o) ∈ gone)) as [[-> Hi]|N1].
    + rewrite decide_True; [reflexivity|]. split; [reflexivity|]. apply elem_of_cons; auto.
    + destruct (decide (w = vid /\ a = a1 /\ o = o1)) as [(-> & -> & ->)|N2].
      * rewrite decide_True; [reflexivity|]. split; [reflexivity|]. apply elem_of_cons; auto.
      * rewrite decide_False; [reflexivity|]. intros [-> Hi]. apply elem_of_cons in Hi as [E|Hi]; [injection E as -> ->; auto|auto].
Qed.

Context (s : state) (G : good P s) (c : ctx).
Notation me := (c_pred c).

(** what the mirroring call writes *)
Lemma mirror_lines ext l s' e : SInv P s' -> exec c s (MirrorLps ext l) = Ok (s', e) ->
  exists gone, logs c s (MirrorLps ext l) =
      LMirror (get_available_voting_power s (evm_account ext) + used_or0 s (evm_account ext))
        (sum_by (fun lp => power lp.1 lp.2) l) (used_or0 s (evm_account ext))
      :: map (fun x => LUnvote (evm_account ext) x.2 x.1) gone /\
    NoDup gone /\ (forall x, x ∈ gone -> 0 < votes_or0 s (evm_account ext) x.1 x.2) /\
    (forall w a o, votes_or0 s' w a o = if decide (w = evm_account ext /\ (a, o) ∈ gone) then 0 else votes_or0 s w a o) /\
    used_or0 s (evm_account ext) <= sum_by (fun lp => power lp.1 lp.2) l + sum_by (fun x => votes_or0 s (evm_account ext) x.1 x.2) gone.
Proof.
  intros HS' H. pose proof (g_s _ _ G) as HS. cbn [exec] in H. apply noeff_Ok in H as [H _]. pose proof H as H0.
  pose proof (mirror_inv _ _ _ _ _ _ _ (si_inv _ _ HS) H)
    as (Lw & Lw' & vps & v1 & s1 & Hop & Hd & Hrw & Hpw & _ & Hvps & Hlen & Hloop & _ & Hrw' & _ & _ & Hle & Ht & _ & Es).
  change (pseudo_near_address ext) with (evm_account ext) in *. set (vid := evm_account ext) in *.
  destruct (si_ex _ _ HS vid) as [L HX].
  assert (used Lw = used L) as EL.
  { rewrite <- (used_raw_rep _ _ _ _ _ Hrw), <- (used_raw_rep _ _ _ _ _ (ve_rep _ _ _ _ _ _ HX)). reflexivity. }
  rewrite EL in *.
  destruct (dropped_loop _ _ _ _ _ _ _ _ _ _ HX (si_nd _ _ HS) eq_refl Hloop)
    as (L' & gone & Hdr & Hm & Hu' & Hgd & Hgp & Hgl & Hgs & Hnew).
  pose proof Hvps as Hp. apply powers_of in Hp.
  assert (Esum : sumN vps = sum_by (fun lp => power lp.1 lp.2) l) by (rewrite Hp; reflexivity).
  assert (Eu : used_or0 s vid = used L) by apply (used_exact _ _ _ _ HS HX).
  pose proof (vm_st _ _ _ _ _ _ _ _ Hm) as (vs & hv & hp & E1).
  set (v2 := mkVoter _ _ _ _) in Es.
  assert (Ev : voters s' = om_set (voters s) vid v2) by (rewrite Es, E1; reflexivity).
  exists gone. split; [|split; [exact Hgd|split; [|split]]].
  - cbn [logs]. unfold operator_mirror_lps in H0. apply bind_Ok in H0 as (? & _ & H0). apply bind_Ok in H0 as (? & _ & H0). cbv zeta in H0.
    change (pseudo_near_address ext) with vid in *.
    apply bind_Ok in H0 as (u & Hu & H0). apply bind_Ok in H0 as (pv & Hpv & H0). apply bind_Ok in H0 as (vps0 & Hvps0 & H0).
    apply bind_Ok in H0 as (nw & Hnw & H0).
    rewrite Hvps in Hvps0. injection Hvps0 as <-. pose proof (proj1 (sum128_Ok _ _) Hnw) as [Enw _].
    pose proof (proj1 (add128_Ok _ _ _) Hpv) as [Epv _].
    assert (Eu2 : u = used L). { rewrite <- Eu. unfold used_or0, get_used_voting_power. rewrite Hu. reflexivity. }
    unfold mirror_log. change (pseudo_near_address ext) with vid. cbv zeta. rewrite Hu, go, Hpv, go, Hvps, go, Hnw, go.
    rewrite Enw, Eu2, Hdr, go. rewrite Epv, Eu2, Eu, Esum. unfold get_available_voting_power. reflexivity.
  - intros x Hx. rewrite (votes_or0_exact _ _ _ _ _ _ HX). apply Hgp. exact Hx.
  - intros w a o.
    pose proof (acct_moved P s G s1 s' vid v1 v2 L L' HS' HX Hm Ev eq_refl) as A.
    specialize (A ltac:(rewrite Es; reflexivity) ltac:(rewrite Es; reflexivity) w). destruct A as (_ & _ & _ & _ & _ & A).
    specialize (A a o). change (a_votes (acct_of s' w) a o) with (votes_or0 s' w a o) in A. rewrite A.
    destruct (decide (w = vid)) as [->|Hw].
    + rewrite put_eq. cbn [a_votes]. rewrite Hgl, (votes_or0_exact _ _ _ _ _ _ HX).
      destruct (decide ((a, o) ∈ gone)); [rewrite decide_True by auto|rewrite decide_False by tauto]; reflexivity.
    + rewrite put_ne by exact Hw. rewrite decide_False by tauto. reflexivity.
  - rewrite <- Esum, Eu. erewrite (sum_by_ext (fun x => votes_or0 s vid x.1 x.2)).
    2:{ intros x _. rewrite (votes_or0_exact _ _ _ _ _ _ HX). reflexivity. }
    lia.
Qed.


Lemma set_told vid addr obj n s' : same (observe s') (set_votes vid addr obj n (observe s)) ->
  forall w a o, votes_or0 s' w a o = entry vid addr obj n (votes_or0 s) w a o.
Proof.
  intros (_ & H & _) w a o. destruct (H w) as (_ & _ & _ & _ & _ & A). specialize (A a o).
  change (a_votes (l_acct (observe s') w) a o) with (votes_or0 s' w a o) in A. rewrite A.
  unfold set_votes, on, entry. cbn [l_acct set]. destruct (decide (w = vid)) as [->|Hw].
  - rewrite put_eq. cbn [a_votes set]. unfold put2.
    destruct (decide (a = addr /\ o = obj)) as [[-> ->]|Hn]; [rewrite decide_True by auto|rewrite decide_False by tauto]; reflexivity.
  - rewrite put_ne by exact Hw. rewrite decide_False by tauto. reflexivity.
Qed.

Lemma rebalance_line vp addr obj s' : rebalance c s vp addr obj = Ok s' ->
  exists l, rebalance_log c s vp addr obj = [l] /\ forall f, told f l = entry me addr obj vp f.
Proof.
  intros H. unfold rebalance_log. unfold rebalance in H.
  apply bind_Ok in H as (u0 & _ & H). cbn zeta in H. apply bind_Ok in H as (v & Hv & H). apply expect_Ok in Hv.
  apply bind_Ok in H as (h & Hh & H). apply bind_Ok in H as (oo & Hoo & H). apply bind_Ok in H as (x & Hx & H). apply expect_Ok in Hx. subst oo.
  destruct (vp =? 0) eqn:E0; nb.
  - eexists. split; [reflexivity|]. intros f. subst vp. reflexivity.
  - rewrite (get_voter_Some _ _ _ Hv), Hh, go, Hoo. destruct (x <? vp); eexists; split; try reflexivity.
Qed.

Lemma step_told o s' e : tgt P c o -> SInv P s' -> exec c s o = Ok (s', e) ->
  forall w a b, votes_or0 s' w a b = told_all (logs c s o) (votes_or0 s) w a b.
Proof.
  intros Ht HS' H w a b. destruct (is_vote_op o) eqn:Eo.
  2:{ rewrite (quiet _ _ _ _ Eo). destruct (MVStep2.kept P s G c _ _ _ H Eo) as (_ & K & _). apply K. }
  pose proof (step_votes P s G c _ _ _ Ht HS' H) as T.
  destruct o; try discriminate Eo.
  - rewrite (set_told _ _ _ _ _ T). reflexivity.
  - rewrite (set_told _ _ _ _ _ T). cbn [exec] in H. apply noeff_Ok in H as [H _].
    destruct (rebalance_line _ _ _ _ H) as (l & El & Hl). cbn [logs]. rewrite El. cbn [told_all fold_left]. rewrite Hl. reflexivity.
  - rewrite (set_told _ _ _ _ _ T). reflexivity.
  - destruct (mirror_lines _ _ _ _ HS' H) as (gone & El & _ & _ & Hg & _). rewrite El, Hg.
    cbn [told_all fold_left told]. symmetry. apply told_gone.
  - rewrite (set_told _ _ _ _ _ T). reflexivity.
  - rewrite (set_told _ _ _ _ _ T). reflexivity.
Qed.
End Log.
