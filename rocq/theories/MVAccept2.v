(** MVAccept2.v -- proofs for C71, continued: voting, mirrors, migration, token callbacks. *)

From Verif Require Export MVAccept.

Section Votes.
Context (P : string -> string -> Prop) (s : state) (G : good P s).

Lemma voted_addr vid L a :
  vexact P (hp_vp s) (hp_vv s) vid (v_vp (get_voter s vid)) L ->
  a ∈ L.*1 <-> exists o, 0 < votes_or0 s vid a o.
Proof.
  intros HX. split.
  - intros Ha. destruct (om_get L a) as [[hh m]|] eqn:E; [|apply om_get_None in E; contradiction].
    destruct (ve_in _ _ _ _ _ _ HX _ _ _ E) as (_ & Hne & Hpos). destruct m as [|[o x] m]; [contradiction|].
    exists o. rewrite (votes_or0_exact P _ _ _ _ _ HX). unfold lvotes. rewrite E. cbn. rewrite decide_True by reflexivity. cbn.
    apply (Hpos o). cbn. rewrite decide_True by reflexivity. reflexivity.
  - intros [o Ho]. rewrite (votes_or0_exact P _ _ _ _ _ HX) in Ho. unfold lvotes in Ho.
    destruct (om_get L a) as [[hh m]|] eqn:E; [|lia]. eapply om_get_Some_key; exact E.
Qed.

Lemma voted_len vid L m :
  vexact P (hp_vp s) (hp_vv s) vid (v_vp (get_voter s vid)) L ->
  (exists voted, NoDup voted /\ (forall a, In a voted <-> exists o, 0 < votes_or0 s vid a o) /\ N.of_nat (length voted) <= m)
  <-> N.of_nat (h_len (v_vp (get_voter s vid))) <= m.
Proof.
  intros HX. pose proof (vr_outer _ _ _ _ _ (ve_rep _ _ _ _ _ _ HX)) as [Hl _].
  unfold outer in Hl. rewrite fmap_length in Hl. rewrite Hl. split.
  - intros (voted & Hnd & Hin & Hle).
    assert (Hp : voted ≡ₚ L.*1).
    { apply NoDup_Permutation; [exact Hnd|apply (ve_NoDup P _ _ _ _ _ HX)|]. intros a. rewrite elem_of_list_In, Hin. symmetry.
      apply voted_addr. exact HX. }
    apply Permutation_length in Hp. rewrite fmap_length in Hp. lia.
  - intros Hle. exists L.*1. split; [apply (ve_NoDup P _ _ _ _ _ HX)|]. split; [|rewrite fmap_length; exact Hle].
    intros a. rewrite <- elem_of_list_In. apply voted_addr. exact HX.
Qed.

Lemma oo_vote vid vp addr obj : P vid addr -> 0 < vp -> can_vote s vid vp -> oo (internal_vote s vid vp addr obj).
Proof.
  intros HP Hvp (Hr & Ha & Hv). destruct (si_ex _ _ (g_s _ _ G) vid) as [L HX].
  apply (voted_len vid L _ HX) in Hv. cbn in Hv. unfold get_available_voting_power in Ha.
  unfold internal_vote. rewrite (gvop _ _ (reg_voter _ _ Hr)). cbn [mbind res_bind].
  apply oo_bind; [|intros [? ?] _; exact I]. unfold internal_create_voting_position.
  oreq; [apply N.leb_le; exact Ha|]. oreq; [apply N.leb_le; exact Hv|].
  rewrite (gvp_exact P _ _ _ _ _ HX). cbn [mbind res_bind].
  rewrite (ve_uget_inner P _ _ _ _ _ HX _ obj HP). cbn [mbind res_bind].
  osub; [exact Ha|]. intros av _. oadd. intros x Ex. apply add128_Ok in Ex as [-> _]. rewrite <- lvotes_imap.
  destruct (ve_set P _ _ _ _ _ HX addr obj (lvotes L addr obj + vp) HP ltac:(lia))
    as (hv' & h' & hp' & hd' & E1 & E2 & _).
  rewrite E1. cbn [mbind res_bind]. rewrite E2. cbn [mbind res_bind].
  apply oo_bind; [|intros; exact I]. unfold increase_total_votes. oadd. intros; exact I.
Qed.

Lemma vote_needs vid vp addr obj s' : P vid addr -> 0 < vp -> internal_vote s vid vp addr obj = Ok s' -> can_vote s vid vp.
Proof.
  intros HP Hvp H. destruct (vote_exact P _ _ _ _ _ _ (g_s _ _ G) HP Hvp H) as (s1 & v' & L & L' & Hv & HX & _ & _ & Hle & _).
  split; [eapply om_get_Some_key; exact Hv|]. split; [exact Hle|]. apply (voted_len vid L _ HX).
  unfold internal_vote in H. rewrite (gvop _ _ Hv) in H. cbn [mbind res_bind] in H. apply bind_Ok in H as ([s2 v2] & H & _).
  unfold internal_create_voting_position in H. apply bind_Ok in H as (? & _ & H). apply bind_Ok in H as (? & Hn & _).
  apply require_Ok in Hn. nb. exact Hn.
Qed.

Lemma oo_unvote c vid addr obj : can_unvote s (now_ms c) vid addr obj -> oo (internal_unvote c s vid addr obj).
Proof.
  intros [Hp Hl]. destruct (si_ex _ _ (g_s _ _ G) vid) as [L HX].
  destruct (unvote_total P c s vid addr obj (lvotes L addr obj) (g_s _ _ G)) as [s' E]; auto.
  - apply (get_votes_exact P _ _ _ _ _ HX).
  - rewrite <- (votes_or0_exact P _ _ _ _ _ HX). exact Hp.
  - eapply oo_eq; exact E.
Qed.

Lemma unvote_needs c vid addr obj s' : internal_unvote c s vid addr obj = Ok s' -> can_unvote s (now_ms c) vid addr obj.
Proof.
  intros H. destruct (unvote_exact P _ _ _ _ _ _ (g_s _ _ G) H) as (s1 & v' & L & L' & _ & HX & _ & _ & Hlk & Hpos & _).
  split; [rewrite (votes_or0_exact P _ _ _ _ _ HX); exact Hpos|]. intros Hl. apply locked_in_spec in Hl. congruence.
Qed.

Lemma oo_rebalance c vp addr obj :
  let me := c_pred c in
  c_deposit c = 0 -> 0 < votes_or0 s me addr obj -> vp <> votes_or0 s me addr obj ->
  (vp = 0 -> ~ lock_in_applies s (now_ms c) addr obj) ->
  vp <= votes_or0 s me addr obj + get_available_voting_power s me -> oo (rebalance c s vp addr obj).
Proof.
  intros me H0 Hp Hne Hl Hle. destruct (si_ex _ _ (g_s _ _ G) me) as [L HX].
  pose proof (votes_or0_exact P _ _ _ addr obj HX) as Ev.
  unfold rebalance. rewrite np0 by exact H0. cbn [mbind res_bind]. cbn zeta. fold me.
  destruct (sinv_own P s me L addr obj (g_s _ _ G) HX) as [Htot Hv]. specialize (Hv ltac:(lia)).
  rewrite (gvop _ _ Hv). cbn [mbind res_bind]. rewrite (gvp_exact P _ _ _ _ _ HX). cbn [mbind res_bind].
  destruct (lvotes_P P _ _ _ _ _ HX addr obj ltac:(lia)) as [HP Hx].
  rewrite (ve_uget_inner P _ _ _ _ _ HX _ obj HP). cbn [mbind res_bind]. rewrite Hx. cbn [expect mbind res_bind].
  oreq; [apply negb_true_iff, N.eqb_neq; congruence|].
  destruct (N.eqb_spec vp 0) as [->|Hz]; [apply oo_unvote; split; auto|].
  unfold get_available_voting_power in Hle. rewrite Ev in *.
  apply oo_bind.
  - destruct (N.ltb_spec (lvotes L addr obj) vp) as [Hlt|Hge].
    + osub; [lia|]. intros ad Ead. apply sub128_Ok in Ead as [-> _]. oreq; [apply N.leb_le; lia|]. osub; [lia|]. intros av _.
      oadd. intros vts _. apply oo_bind; [|intros; exact I]. unfold increase_total_votes. oadd. intros; exact I.
    + osub; [lia|]. intros rm Erm. apply sub128_Ok in Erm as [-> _]. oadd. intros av _. osub; [lia|]. intros vts _.
      destruct (decrease_total s (lvotes L addr obj - vp) addr obj) as [s1 ->]; [lia|lia|]. exact I.
  - intros [[s1 av] vts'] Em.
    assert (hp_vv s1 = hp_vv s /\ hp_vp s1 = hp_vp s /\ 0 < vts') as (-> & -> & Hvt).
    { destruct (N.ltb_spec (lvotes L addr obj) vp) as [Hlt|Hge].
      - apply bind_Ok in Em as (ad & Ead & Em). apply sub128_Ok in Ead as [-> _]. apply bind_Ok in Em as (? & _ & Em).
        apply bind_Ok in Em as (? & _ & Em). apply bind_Ok in Em as (y & Ey & Em). apply add128_Ok in Ey as [-> _].
        apply bind_Ok in Em as (s2 & Hi & [= -> _ <-]). apply increase_total_inv in Hi as [vs ->].
        split; [reflexivity|]. split; [reflexivity|]. lia.
      - apply bind_Ok in Em as (ad & Ead & Em). apply sub128_Ok in Ead as [-> _]. apply bind_Ok in Em as (? & _ & Em).
        apply bind_Ok in Em as (y & Ey & Em). apply sub128_Ok in Ey as [-> _].
        apply bind_Ok in Em as (s2 & Hi & [= -> _ <-]). apply decrease_total_inv in Hi as [vs ->].
        split; [reflexivity|]. split; [reflexivity|]. lia. }
    destruct (ve_set P _ _ _ _ _ HX addr obj vts' HP Hvt) as (hv' & h' & hp' & hd' & E1 & E2 & _).
    rewrite E1. cbn [mbind res_bind]. rewrite E2. exact I.
Qed.

Lemma rebalance_needs c vp addr obj s' :
  let me := c_pred c in rebalance c s vp addr obj = Ok s' ->
  c_deposit c = 0 /\ 0 < votes_or0 s me addr obj /\ vp <> votes_or0 s me addr obj /\
  (vp = 0 -> ~ lock_in_applies s (now_ms c) addr obj) /\
  vp <= votes_or0 s me addr obj + get_available_voting_power s me.
Proof.
  intros me H. pose proof H as H0. destruct (rebalance_exact P _ _ _ _ _ _ (g_s _ _ G) H)
    as (s1 & v' & L & L' & _ & HX & _ & _ & Hpos & Hne & Hav & Hlk & _). fold me in HX, Hav.
  rewrite (votes_or0_exact P _ _ _ _ _ HX). split.
  { unfold rebalance in H0. apply bind_Ok in H0 as (? & H0 & _). apply require_Ok in H0. nb. exact H0. }
  split; [exact Hpos|]. split; [exact Hne|]. split; [|unfold get_available_voting_power; lia].
  intros Hz Hl. specialize (Hlk Hz). apply locked_in_spec in Hl. congruence.
Qed.

(** ** Delegation *)
Lemma verify_ok c evm : get_delegate s evm = Some (c_pred c) -> verify_delegate c s evm = Ok (evm_account evm).
Proof.
  intros H. unfold verify_delegate. rewrite bool_decide_true; [reflexivity|]. apply (di_iff _ _ (g_d _ _ G)). exact H.
Qed.

(** ** Migration from the previous contract *)
Definition lock_days (l : list lpos) (k : N) : Prop := exists p, In p l /\ lp_unl p = None /\ lp_days p = k.

Lemma lock_days_dec l k : {lock_days l k} + {~ lock_days l k}.
Proof.
  destruct (find_locked_from 0 l k) as [n|] eqn:E.
  - left. apply find_locked_from_Some in E as (p & _ & Hp & Hd & Hu). exists p.
    split; [apply elem_of_list_In, elem_of_list_lookup; eauto|auto].
  - right. intros H. apply find_locked_some in H. rewrite E in H. destruct H; discriminate.
Qed.

Lemma lock_days_deposit s1 amount days vid v s2 v2 k :
  deposit_locking_position s1 amount days vid v = Ok (s2, v2) ->
  lock_days (v_lps v2) k <-> k = days \/ lock_days (v_lps v) k.
Proof. intros H. apply deposit_after in H as (_ & _ & _ & H & _). apply H. Qed.

Lemma find_lock_days l k : is_Some (find_locked_from 0 l k) <-> lock_days l k.
Proof.
  split; [|apply find_locked_some]. intros [n E]. apply find_locked_from_Some in E as (p & _ & Hp & Hd & Hu).
  exists p. split; [apply elem_of_list_In, elem_of_list_lookup; eauto|auto].
Qed.

Definition new_days (l : list (N * N)) (ps : list lpos) (new : list N) : Prop :=
  NoDup new /\ forall k, In k new <-> In k l.*2 /\ ~ lock_days ps k.

Lemma new_days_cons_old lp l ps ps' new :
  lock_days ps lp.2 -> (forall k, lock_days ps' k <-> k = lp.2 \/ lock_days ps k) ->
  new_days (lp :: l) ps new <-> new_days l ps' new.
Proof.
  intros Hlp He. unfold new_days. split; intros [Hn Hi]; (split; [exact Hn|]); intros k; rewrite Hi, He; cbn; split.
  - intros [[<-|Hk] Hd]; [contradiction|]. split; [exact Hk|]. intros [->|Hx]; contradiction.
  - intros [Hk Hd]. split; [right; exact Hk|]. intros Hx. apply Hd. right. exact Hx.
  - intros [Hk Hd]. split; [right; exact Hk|]. intros Hx. apply Hd. right. exact Hx.
  - intros [[<-|Hk] Hd]; [contradiction|]. split; [exact Hk|]. intros [->|Hx]; contradiction.
Qed.

Lemma new_days_cons_new lp l ps ps' :
  ~ lock_days ps lp.2 -> (forall k, lock_days ps' k <-> k = lp.2 \/ lock_days ps k) ->
  forall n, (exists new, new_days (lp :: l) ps new /\ length new = S n) <-> (exists new, new_days l ps' new /\ length new = n).
Proof.
  intros Hlp He n. split.
  - intros (new & [Hn Hi] & Hl). assert (Hin : lp.2 ∈ new) by (apply elem_of_list_In, Hi; split; [left; reflexivity|exact Hlp]).
    apply elem_of_Permutation in Hin as [r Hr]. exists r. rewrite Hr in Hn. apply NoDup_cons in Hn as [Hn1 Hn2].
    split; [split; [exact Hn2|]|apply Permutation_length in Hr; cbn in Hr; lia].
    intros k. rewrite He. assert (Hk : In k new <-> k = lp.2 \/ In k r).
    { rewrite <- !elem_of_list_In, Hr, elem_of_cons. reflexivity. }
    rewrite Hi in Hk. cbn in Hk. rewrite elem_of_list_In in Hn1. split.
    + intros Hkr. assert (k <> lp.2) by congruence. destruct (proj2 Hk (or_intror Hkr)) as [[E|Hl2] Hd]; [congruence|].
      split; [exact Hl2|]. intros [E|Hx]; contradiction.
    + intros [Hk1 Hd]. destruct (proj1 Hk) as [E|Hx]; [|exfalso; apply Hd; left; exact E|exact Hx].
      split; [right; exact Hk1|]. intros Hx. apply Hd. right. exact Hx.
  - intros (r & [Hn Hi] & Hl). exists (lp.2 :: r). split; [|cbn; lia]. split.
    + apply NoDup_cons. split; [|exact Hn]. intros Hx. apply elem_of_list_In, Hi in Hx as [_ Hx]. apply Hx, He. left. reflexivity.
    + intros k. cbn. rewrite Hi, He. split.
      * intros [<-|[Hk Hd]]; [split; [left; reflexivity|exact Hlp]|]. split; [right; exact Hk|]. intros Hx. apply Hd. right. exact Hx.
      * intros [[E|Hk] Hd]; [left; exact E|]. destruct (decide (k = lp.2)) as [E|Hne]; [left; congruence|].
        right. split; [exact Hk|]. intros [E|Hx]; contradiction.
Qed.

Definition mig_ok (s : state) (v : voter) (l : list (N * N)) : Prop :=
  Forall (fun lp => min_unbond s <= lp.2 <= max_unbond s /\ lp.2 < 3600) l /\
  exists new, new_days l (v_lps v) new /\ N.of_nat (length (v_lps v)) + N.of_nat (length new) <= max_lps s.

Lemma mig_step s1 v1 lp l vid s2 v2 :
  deposit_locking_position s1 (lp.1 / E18) lp.2 vid v1 = Ok (s2, v2) ->
  (exists new, new_days (lp :: l) (v_lps v1) new /\ N.of_nat (length (v_lps v1)) + N.of_nat (length new) <= max_lps s1) <->
  (exists new, new_days l (v_lps v2) new /\ N.of_nat (length (v_lps v2)) + N.of_nat (length new) <= max_lps s2).
Proof.
  intros H. pose proof (fun k => lock_days_deposit _ _ _ _ _ _ _ k H) as Hk.
  apply deposit_after in H as (-> & _ & _ & _ & ->).
  destruct (lock_days_dec (v_lps v1) lp.2) as [Hd|Hd].
  - destruct (proj2 (find_lock_days _ _) Hd) as [n ->]. rewrite Nat.add_0_r.
    split; intros (new & Hn & Hl); exists new; (split; [|exact Hl]); eapply new_days_cons_old; eauto.
  - destruct (find_locked_from 0 (v_lps v1) lp.2) eqn:E; [exfalso; apply Hd, find_lock_days; rewrite E; eauto|].
    pose proof (new_days_cons_new lp l _ _ Hd Hk) as Hc. split.
    + intros (new & Hn & Hl). destruct new as [|x new0] eqn:En.
      { exfalso. destruct Hn as [_ Hi]. apply (proj2 (Hi lp.2)). split; [left; reflexivity|exact Hd]. }
      destruct (proj1 (Hc (length new0))) as (r & Hr & Hlr); [exists (x :: new0); auto|]. exists r. split; [exact Hr|]. cbn in Hl. lia.
    + intros (r & Hr & Hl). destruct (proj2 (Hc (length r))) as (new & Hn & Hln); [eauto|]. exists new. split; [exact Hn|]. lia.
Qed.

Lemma oo_mig vid l v :
  mig_ok s v l ->
  oo (foldM (fun sv lp => deposit_locking_position sv.1 (lp.1 / E18) lp.2 vid sv.2) l (s, v)).
Proof.
  intros H. apply (oo_foldM (fun sv l => max_lps sv.1 < 256 /\ mig_ok sv.1 sv.2 l)).
  - split; [exact (g_max _ _ G)|exact H].
  - intros [s1 v1] lp r [Hm [HF (new & Hn & Hl)]]. cbn [fst snd] in *. apply Forall_inv in HF as [Hb Hd].
    apply oo_deposit; auto. destruct (lock_days_dec (v_lps v1) lp.2) as [Hk|Hk]; [left; exact Hk|right].
    destruct new as [|x new]; [|cbn in Hl; lia]. exfalso. destruct Hn as [_ Hi]. apply (proj2 (Hi lp.2)).
    split; [left; reflexivity|exact Hk].
  - intros [s1 v1] lp r [s2 v2] [Hm [HF Hx]] E. cbn [fst snd] in *. pose proof (deposit_after _ _ _ _ _ _ _ E) as (E1 & E2 & E3 & _).
    split; [lia|]. split.
    + apply Forall_cons_1 in HF as [_ HF]. rewrite E2, E3. exact HF.
    + eapply mig_step; eauto.
Qed.

Lemma dep_room M l amount days vp l' :
  dep_lps M l amount days vp l' -> M < 256 -> N.of_nat (length l) <= M ->
  lock_days l days \/ N.of_nat (length l) < M.
Proof.
  intros [(i & p & Hl & Hd & Hu & _)|(_ & Hlt & _)] HM Hle.
  - left. exists p. split; [apply elem_of_list_In, elem_of_list_lookup; eauto|auto].
  - right. rewrite N.mod_small in Hlt by lia. exact Hlt.
Qed.

Lemma mig_needs vid l : forall s1 v1 s2 v2,
  max_lps s1 < 256 -> N.of_nat (length (v_lps v1)) <= max_lps s1 ->
  foldM (fun sv lp => deposit_locking_position sv.1 (lp.1 / E18) lp.2 vid sv.2) l (s1, v1) = Ok (s2, v2) ->
  mig_ok s1 v1 l.
Proof.
  induction l as [|lp l IH]; intros s1 v1 s2 v2 HM Hle H.
  - split; [constructor|]. exists []. split; [split; [constructor|]; intros k; cbn; tauto|]. cbn. lia.
  - cbn [foldM] in H. apply bind_Ok in H as ([s3 v3] & E & H). cbn [fst snd] in E.
    pose proof (deposit_after _ _ _ _ _ _ _ E) as (E1 & E2 & E3 & _ & El).
    pose proof (deposit_inv _ _ _ _ _ _ _ E) as (vp & l' & Hc & Hb & Hd & _).
    apply calc_Ok in Hc as (_ & _ & H36 & _).
    apply (dep_room _ _ _ _ _ _ Hd HM) in Hle as Hr.
    apply IH in H as [HF Hx]; [|lia|].
    + split; [apply List.Forall_cons; [auto|]; rewrite E2, E3 in HF; exact HF|]. eapply mig_step; eauto.
    + rewrite E1, El. destruct Hr as [Hr|Hr]; [|destruct (find_locked_from _ _ _); lia].
      apply find_lock_days in Hr as [n ->]. lia.
Qed.

(** ** Mirrored positions *)
Lemma oo_mirror c ext l :
  c_deposit c = 0 -> c_pred c = operator_id s -> NoDup l.*1 -> N.of_nat (length l) <= max_lps s ->
  Forall (fun lp => lp.1 < 3600) l -> oo (operator_mirror_lps c s ext l).
Proof.
  intros H0 Ho Hnd Hlen HF. pose proof (g_s _ _ G) as HS. pose proof (g_max _ _ G) as HM.
  unfold operator_mirror_lps. rewrite np0 by exact H0. cbn [mbind res_bind]. rewrite opr1 by exact Ho. cbn [mbind res_bind]. cbn zeta.
  set (vid := pseudo_near_address ext). destruct (si_ex _ _ HS vid) as [L HX].
  destruct (sinv_power P s vid L HS HX) as [Hpw Hb].
  rewrite (sum_used_rep s _ vid L (ve_rep _ _ _ _ _ _ HX)) by lia. cbn [mbind res_bind].
  oadd. intros prev Ep. apply add128_Ok in Ep as [-> _].
  apply oo_bind.
  { apply oo_mapMr. intros lp Hlp. apply oo_calc. rewrite Forall_forall in HF. apply HF, elem_of_list_In, Hlp. }
  intros vps Hvps. apply oo_bind; [apply oo_sum128|]. intros new Hnew. apply sum128_Ok in Hnew as [-> _].
  destruct (mirror_loop_fuel P (S (vote_entries s (get_voter s vid))) s vid (get_voter s vid) (used L)
    (sumN vps) L) as [[[s1 v1] u1] Hloop]; auto.
  { exact (si_nd _ _ HS). }
  { intros a o. apply (sinv_own P s vid L a o HS HX). }
  { lia. }
  { rewrite (entries_rep _ _ _ _ (ve_rep _ _ _ _ _ _ HX)). lia. }
  rewrite Hloop. cbn [mbind res_bind].
  destruct (mirror_loop_exact P _ _ _ _ _ _ _ _ _ _ HX (si_nd _ _ HS) eq_refl Hloop) as (L' & Hm & Hu' & _ & Hn & _).
  pose proof (vm_st _ _ _ _ _ _ _ _ Hm) as (vs & hv & hp & E1).
  apply oo_bind.
  - apply (oo_foldM (fun sv r => max_lps sv.1 = max_lps s /\ Forall (fun lp => lp.1 < 3600) r /\ NoDup r.*1 /\
      (forall p, In p (v_lps sv.2) -> lp_days p ∉ r.*1) /\ N.of_nat (length (v_lps sv.2)) + N.of_nat (length r) <= max_lps s)).
    + cbn [fst snd]. split; [rewrite E1; reflexivity|]. split; [exact HF|]. split; [exact Hnd|].
      split; [intros p []|]. cbn. lia.
    + intros [s2 v2] lp r (Em & HF2 & Hn2 & Hd2 & Hl2). cbn [fst snd] in *.
      unfold internal_create_locking_position, assert_lps_room. cbn [length] in Hl2. oreq.
      { rewrite N.mod_small by lia. apply N.ltb_lt. lia. }
      oreq. { destruct (find_locked_position v2 lp.1) as [n|] eqn:E; [|reflexivity]. exfalso.
              apply find_locked_Some in E as (p & Hp & Hd & _). apply (Hd2 p); [apply elem_of_list_In, elem_of_list_lookup; eauto|].
              rewrite Hd. left. }
      apply oo_bind; [apply oo_calc; apply Forall_inv in HF2; exact HF2|]. intros vp _. oadd. intros ? _. oadd. intros ? _. exact I.
    + intros [s2 v2] lp r [s3 v3] (Em & HF2 & Hn2 & Hd2 & Hl2) E. cbn [fst snd] in *.
      apply create_lp_inv in E as (vp & _ & _ & _ & _ & _ & -> & ->). rewrite fmap_cons in *. apply NoDup_cons in Hn2 as [Hn1 Hn2].
      split; [exact Em|]. split; [apply Forall_cons_1 in HF2 as [_ HF2]; exact HF2|]. split; [exact Hn2|]. split.
      * cbn. intros p Hp. apply in_app_iff in Hp as [Hp|[<-|[]]]; [|exact Hn1]. intros Hx. apply (Hd2 p Hp). right. exact Hx.
      * cbn. rewrite app_length. cbn. cbn [length] in Hl2. lia.
  - intros [s2 v3] Hcr. destruct (create_lps_loop _ _ _ _ _ _ Hvps Hcr) as (-> & -> & _ & _).
    osub; [cbn; lia|]. intros av _. osub; [cbn; rewrite E1; cbn; lia|]. intros; exact I.
Qed.

(** ** Transfers to the contract *)
Lemma fc_spec msg : sliceable 11 msg ->
  msg_is_for_claims msg = Ok (match after_prefix "for-claims:" msg with Some _ => true | None => false end).
Proof.
  intros Hs. assert (H : exists b, msg_is_for_claims msg = Ok b).
  { unfold msg_is_for_claims. destruct (Nat.leb_spec 11 (String.length msg)) as [Hl|Hl]; [|eexists; reflexivity].
    rewrite (Hs Hl). eexists; reflexivity. }
  destruct H as [[|] H]; rewrite H; [rewrite (for_claims_true _ H)|rewrite (for_claims_false _ H)]; reflexivity.
Qed.
Lemma fc_needs msg b : msg_is_for_claims msg = Ok b -> sliceable 11 msg.
Proof.
  unfold msg_is_for_claims, sliceable. intros H Hl. apply Nat.leb_le in Hl. rewrite Hl in H.
  apply bind_Ok in H as (? & H & _). apply require_Ok in H. exact H.
Qed.
Lemma pair_spec msg : sliceable 1 msg ->
  msg_is_pair msg = Ok (match after_prefix "[" msg with Some _ => true | None => false end).
Proof.
  intros Hs. unfold msg_is_pair. destruct (Nat.leb_spec 1 (String.length msg)) as [Hl|Hl].
  - rewrite (Hs Hl). cbn [require mbind res_bind]. destruct msg as [|x m]; [cbn in Hl; lia|].
    rewrite substring_0. replace (String.substring 0 0 m) with "" by (destruct m; reflexivity). cbn [after_prefix]. f_equal.
    destruct (Ascii.eqb_spec "[" x) as [<-|Hne]; [apply bool_decide_true; reflexivity|apply bool_decide_false; congruence].
  - destruct msg; [reflexivity|cbn in Hl; lia].
Qed.
Lemma pair_needs msg b : msg_is_pair msg = Ok b -> sliceable 1 msg.
Proof.
  unfold msg_is_pair, sliceable. intros H Hl. apply Nat.leb_le in Hl. rewrite Hl in H.
  apply bind_Ok in H as (? & H & _). apply require_Ok in H. exact H.
Qed.

Lemma oo_add_claimable m t a x : oo (add_claimable m t a x).
Proof. unfold add_claimable. oadd. intros ? _. oadd. intros; exact I. Qed.

Lemma oo_distribute c amount l :
  Forall (fun p => 0 < p.2) l ->
  (c_pred c = mpdao_addr s /\ amount = mp_unit * sum_by snd l) \/
  (c_pred c <> mpdao_addr s /\ c_pred c = stnear_addr s /\ amount = st_unit * sum_by snd l) ->
  oo (distribute_for_claims c s amount l).
Proof.
  intros HF H. unfold distribute_for_claims. apply oo_bind.
  - destruct H as [[Hp _]|(Hnp & Hp & _)].
    + rewrite bool_decide_true by exact Hp. apply oo_bind.
      * apply (oo_foldM (fun _ r => Forall (fun p => 0 < p.2) r)); [exact HF| |intros b p r b' Hf _; inversion Hf; assumption].
        intros b p r Hf. apply Forall_inv in Hf. apply oo_bind; [apply oo_mul|]. intros x Hx. apply mul128_Ok in Hx as [-> _].
        apply oo_bind; [|intros ? _; oadd; intros; exact I]. unfold add_claimable_mpdao. oreq; [apply N.ltb_lt; lia|].
        apply oo_bind; [apply oo_add_claimable|]. intros [? ?] _. exact I.
      * intros [s1 d] _. oadd. intros; exact I.
    + rewrite bool_decide_false by exact Hnp. rewrite bool_decide_true by exact Hp. apply oo_bind.
      * apply (oo_foldM (fun _ r => Forall (fun p => 0 < p.2) r)); [exact HF| |intros b p r b' Hf _; inversion Hf; assumption].
        intros b p r Hf. apply Forall_inv in Hf. apply oo_bind; [apply oo_mul|]. intros x Hx. apply mul128_Ok in Hx as [-> _].
        apply oo_bind; [|intros ? _; oadd; intros; exact I]. unfold add_claimable_stnear. oreq; [apply N.ltb_lt; unfold E20; lia|].
        apply oo_bind; [apply oo_add_claimable|]. intros [? ?] _. exact I.
      * intros [s1 d] _. oadd. intros; exact I.
  - intros [s2 d] E. oreq; [|exact I]. apply N.eqb_eq. destruct H as [[Hp ->]|(Hnp & Hp & ->)].
    + rewrite bool_decide_true in E by exact Hp. apply bind_Ok in E as ([s1 d1] & E & E2). apply bind_Ok in E2 as (? & _ & [= _ <-]).
      apply dist_loop_mp in E as (_ & -> & _). lia.
    + rewrite bool_decide_false in E by exact Hnp. rewrite bool_decide_true in E by exact Hp.
      apply bind_Ok in E as ([s1 d1] & E & E2). apply bind_Ok in E2 as (? & _ & [= _ <-]).
      apply dist_loop_st in E as (_ & -> & _). lia.
Qed.

End Votes.
