(** MVFits2.v -- C76, continued: each call that can meet a number too big, in both directions. *)

From Verif Require Export MVFits.

Lemma u128_eq n : u128 n <-> n < U128_SIZE.
Proof. unfold u128. assert (E : 2 ^ 128 = U128_SIZE) by reflexivity. rewrite E. reflexivity. Qed.

(** ** Unclaimed totals are 128-bit numbers *)
Definition uncl_fit (s : state) : Prop := uncl_mp s < U128_SIZE /\ uncl_st s < U128_SIZE.

Lemma dist_fit c s amount l s' : uncl_fit s -> distribute_for_claims c s amount l = Ok s' -> uncl_fit s'.
Proof.
  intros HU H. unfold distribute_for_claims in H. apply bind_Ok in H as ([s2 d] & H & H2). apply bind_Ok in H2 as (? & _ & [= <-]).
  destruct (bool_decide (c_pred c = mpdao_addr s)).
  - apply bind_Ok in H as ([s1 d1] & H & H2). apply bind_Ok in H2 as (acc & _ & [= <- _]).
    apply (foldM_inv (fun sd : state * N => uncl_fit sd.1)) in H; [exact H| |exact HU].
    intros [t d2] p [t' d3] _ [H1 H3] E. cbn [fst snd] in *. apply bind_Ok in E as (y & _ & E). apply bind_Ok in E as (t1 & E & E2).
    apply bind_Ok in E2 as (? & _ & [= -> _]). apply add_claimable_mpdao_inv in E as (_ & _ & Hb & ->). split; [exact Hb|exact H3].
  - destruct (bool_decide (c_pred c = stnear_addr s)); [|discriminate].
    apply bind_Ok in H as ([s1 d1] & H & H2). apply bind_Ok in H2 as (acc & _ & [= <- _]).
    apply (foldM_inv (fun sd : state * N => uncl_fit sd.1)) in H; [exact H| |exact HU].
    intros [t d2] p [t' d3] _ [H1 H3] E. cbn [fst snd] in *. apply bind_Ok in E as (y & _ & E). apply bind_Ok in E as (t1 & E & E2).
    apply bind_Ok in E2 as (? & _ & [= -> _]). apply add_claimable_stnear_inv in E as (_ & _ & Hb & ->). split; [exact H1|exact Hb].
Qed.

Lemma uncl_exec x s s' e : CIs s -> uncl_fit s -> exec x.1 s x.2 = Ok (s', e) -> uncl_fit s'.
Proof.
  intros HC HU H. pose proof (claims_step _ _ _ _ HC H) as (_ & _ & _ & H1 & H2 & _ & _). destruct HU as [U1 U2].
  destruct (claims_list x) as [l|] eqn:El.
  - destruct x as [c o]. unfold claims_list in El. cbn [fst snd] in *. destruct o; try discriminate.
    destruct (after_prefix "for-claims:" msg) as [rest|] eqn:Ea; [|discriminate].
    cbn [exec] in H. apply bind_Ok in H as ([s1 n] & H & [= <- _]). unfold ft_on_transfer in H.
    apply bind_Ok in H as (? & _ & H). apply bind_Ok in H as (fc & Hfc & H). destruct fc.
    + apply bind_Ok in H as (l' & _ & H). apply bind_Ok in H as (? & _ & H). apply bind_Ok in H as (s2 & H & [= <- _]).
      eapply dist_fit; [|exact H]. split; assumption.
    + apply for_claims_false in Hfc. rewrite Ea in Hfc. discriminate.
  - destruct (given_none s x e El) as (_ & _ & E3 & E4). rewrite E3 in H1. rewrite E4 in H2. split; [lia|].
    destruct x as [c o]. cbn [fst snd] in *. unfold st_restored_all in H2. cbn [snd] in H2. destruct o; try lia.
    destruct ok; [lia|]. cbn [exec] in H. apply noeff_Ok in H as [H _]. unfold after_transfer_stnear_callback in H.
    apply bind_Ok in H as (? & _ & H). apply bind_Ok in H as (? & _ & H). apply add_claimable_stnear_inv in H as (_ & _ & Hb & ->). exact Hb.
Qed.

Lemma uncl_run a s0 tr : mv_new a = Ok s0 -> uncl_fit (run s0 tr).
Proof.
  intros H0. assert (H : CIs (run s0 tr) /\ uncl_fit (run s0 tr)); [|apply H].
  apply (run_inv (fun s => CIs s /\ uncl_fit s)).
  - split; [eapply CIs_init; exact H0|]. unfold mv_new in H0. apply bind_Ok in H0 as (? & _ & H0). apply bind_Ok in H0 as (? & _ & H0).
    injection H0 as <-. split; reflexivity.
  - intros x s s' e _ [HC HU] H. split; [eapply claims_step; eassumption|]. eapply uncl_exec; eassumption.
Qed.

(** ** Lists of deposits *)
Lemma locks_fit_ext w l : forall L M, l_power L = l_power M -> a_pos (l_acct L w) = a_pos (l_acct M w) -> locks_fit w l L -> locks_fit w l M.
Proof.
  induction l as [|lp l IH]; intros L M H1 H2 H; [exact I|]. cbn [locks_fit] in *. destruct H as [Ha Hb]. split.
  - unfold lock_fits in *. rewrite <- H1, <- H2. exact Ha.
  - eapply IH; [| |exact Hb].
    + unfold lock_for. cbn [l_power set]. rewrite H1. reflexivity.
    + unfold lock_for, on. cbn [l_acct set]. rewrite !put_eq. unfold lock_acct. cbn [a_pos set]. rewrite H2. reflexivity.
Qed.

Lemma lf_eq L l amount days : lock_fits L (map lpp l) amount days <-> lock_fits' (l_power L) l amount days.
Proof.
  unfold lock_fits, lock_fits'. rewrite !u128_eq. change (10 ^ 18) with E18. apply and_iff_compat_l, and_iff_compat_l.
  split; intros H p Hp; specialize (H p Hp); rewrite !u128_eq in *; exact H.
Qed.

Lemma nf_mig w l : forall s v L, l_power L = total_vp s -> a_pos (l_acct L w) = map lpp (v_lps v) -> v_avail v <= total_vp s ->
  locks_fit w l L -> nf (foldM (fun sv lp => deposit_locking_position sv.1 (lp.1 / E18) lp.2 w sv.2) l (s, v)).
Proof.
  induction l as [|lp l IH]; intros s v L Ht Hp Ha H; [exact I|]. cbn [locks_fit foldM fst snd] in *. destruct H as [H1 H2].
  rewrite Hp, lf_eq, Ht in H1. change (lp.1 / 10 ^ 18) with (lp.1 / E18) in *. apply nf_bind; [apply nf_deposit; assumption|].
  intros [s1 v1] E. apply deposit_step in E as (_ & _ & D2 & D3 & D4). eapply IH; [| | |exact H2].
  - rewrite D4. unfold lock_for. cbn [l_power set]. rewrite Ht. reflexivity.
  - unfold lock_for, on. cbn [l_acct set]. rewrite put_eq. unfold lock_acct. cbn [a_pos set]. rewrite Hp, D2. reflexivity.
  - rewrite D3, D4. change (total_vp (upd s w v1 (total_vp s + power lp.2 (lp.1 / E18)))) with (total_vp s + power lp.2 (lp.1 / E18)). lia.
Qed.

Lemma mig_fits w l : forall s v L r, l_power L = total_vp s -> a_pos (l_acct L w) = map lpp (v_lps v) ->
  foldM (fun sv lp => deposit_locking_position sv.1 (lp.1 / E18) lp.2 w sv.2) l (s, v) = Ok r -> locks_fit w l L.
Proof.
  induction l as [|lp l IH]; intros s v L r Ht Hp H; [exact I|]. cbn [locks_fit foldM fst snd] in *.
  apply bind_Ok in H as ([s1 v1] & E & H). change (lp.1 / 10 ^ 18) with (lp.1 / E18). split.
  - rewrite Hp, lf_eq, Ht. eapply deposit_fits; exact E.
  - apply deposit_step in E as (_ & _ & D2 & D3 & D4). eapply IH; [| |exact H].
    + rewrite D4. unfold lock_for. cbn [l_power set]. rewrite Ht. reflexivity.
    + unfold lock_for, on. cbn [l_acct set]. rewrite put_eq. unfold lock_acct. cbn [a_pos set]. rewrite Hp, D2. reflexivity.
Qed.

Lemma nf_mapMr {A B} (f : A -> res B) l : (forall x, In x l -> nf (f x)) -> nf (mapMr f l).
Proof.
  induction l as [|x l IH]; intros H; [exact I|]. cbn [mapMr]. apply nf_bind; [apply H; left; reflexivity|]. intros y _.
  apply nf_bind; [apply IH; intros z Hz; apply H; right; exact Hz|]. intros; exact I.
Qed.
Lemma sum_ge {A} (f : A -> N) l x : In x l -> f x <= sum_by f l.
Proof. induction l as [|y l IH]; intros []; rewrite sum_by_cons; [subst; lia|]. specialize (IH H). lia. Qed.

Section Fits.
Context (P : string -> string -> Prop) (s : state) (G : good P s) (c : ctx).
Notation me := (c_pred c).
Notation L := (observe s).
Notation now := (now_ms c).

Lemma avail_le w : v_avail (get_voter s w) <= total_vp s.
Proof. destruct (si_ex _ _ (g_s _ _ G) w) as [l HX]. destruct (sinv_power P s w l (g_s _ _ G) HX). lia. Qed.
Lemma total_fit : total_vp s < U128_SIZE.
Proof. destruct (si_ex _ _ (g_s _ _ G) me) as [l HX]. destruct (sinv_power P s me l (g_s _ _ G) HX). assumption. Qed.

Lemma pos_list w : a_pos (l_acct L w) = map lpp (v_lps (get_voter s w)).
Proof. change (l_acct L w) with (acct_of s w). rewrite acct_eq. reflexivity. Qed.
Lemma bal_eq w : a_bal (l_acct L w) = v_bal (get_voter s w).
Proof. change (l_acct L w) with (acct_of s w). rewrite acct_eq. reflexivity. Qed.
Lemma lf w amount days : lock_fits L (a_pos (l_acct L w)) amount days <-> lock_fits' (total_vp s) (v_lps (get_voter s w)) amount days.
Proof. rewrite pos_list. apply lf_eq. Qed.

Lemma gv_inv w v : get_voter_or_panic s w = Ok v -> v = get_voter s w.
Proof. intros H. apply expect_Ok in H. symmetry. apply get_voter_Some. exact H. Qed.

Lemma nf_rem_mp w n : nf (remove_claimable_mpdao s w n).
Proof. unfold remove_claimable_mpdao, remove_claimable. apply nf_bind; [|intros [? ?] _; exact I]. cbn zeta. nreq. nsub. intros ? _. nsub. intros; exact I. Qed.

Lemma nf_clear l w : NoDup l -> (forall k, k ∈ l -> (k < length (v_lps (get_voter s w)))%nat) ->
  a_bal (collect_acct now (in_list l) (l_acct L w)) < U128_SIZE -> nf (clear_fully_unlocked_positions now (get_voter s w) l).
Proof.
  intros Hnd Hl H. unfold collect_acct in H. cbn [a_bal set] in H. rewrite pos_list, bal_eq, map_length in H.
  unfold clear_fully_unlocked_positions. eapply nf_clear_fold; [apply sort_desc_gt; exact Hnd| |].
  - apply Forall_forall. intros k Hk. rewrite sort_desc_perm in Hk. exact (Hl k Hk).
  - erewrite collect_ext; [exact H|]. intros k p _ _. f_equal. unfold in_list. apply bool_decide_ext. rewrite (sort_desc_perm l). reflexivity.
Qed.

Lemma clear_fits l w v1 : NoDup l -> clear_fully_unlocked_positions now (get_voter s w) l = Ok v1 ->
  a_bal (collect_acct now (in_list l) (l_acct L w)) < U128_SIZE.
Proof.
  intros Hnd H. pose proof (clear_exact_inv _ _ _ _ Hnd (g_bal _ _ G w) H) as HH.
  pose proof (clear_voter _ _ _ _ Hnd H (bool_decide (w ∈ voter_ids s)) (used_or0 s w) (votes_or0 s w)) as E.
  change (l_acct L w) with (acct_of s w). rewrite acct_eq, E. cbn [a_bal].
  clear HH E. unfold clear_fully_unlocked_positions in H.
  apply (foldM_inv (fun v => v_bal v < U128_SIZE)) in H; [exact H| |exact (g_bal _ _ G w)].
  intros v k v' _ Hv Hc. apply clear_one_inv in Hc as (p & _ & [[_ ->]|(_ & Hb & ->)]); [exact Hv|exact Hb].
Qed.
Lemma all_bal w : a_bal (collect_acct now (fun _ => true) (l_acct L w)) =
  a_bal (collect_acct now (in_list (unlocked_indexes now (v_lps (get_voter s w)))) (l_acct L w)).
Proof.
  rewrite <- (collected_same s c w (fun _ => True)) by (intros; symmetry; apply bool_decide_true; exact I).
  rewrite <- (collected_same s c w (.∈ unlocked_indexes now (v_lps (get_voter s w)))) by reflexivity. apply collected_all.
Qed.

Lemma nf_withdraw l amt : NoDup l -> (forall k, k ∈ l -> (k < length (v_lps (get_voter s me)))%nat) ->
  a_bal (collect_acct now (in_list l) (l_acct L me)) < U128_SIZE -> nf (internal_withdraw c s me l amt).
Proof.
  intros Hnd Hl H. unfold internal_withdraw, assert_one_yocto. nreq. nexp. intros v Hv. apply gv_inv in Hv as ->.
  apply nf_bind.
  - destruct l as [|k l]; [exact I|]. apply nf_clear; assumption.
  - intros v1 _. cbn zeta. nreq. nreq. nsub. intros; exact I.
Qed.
Lemma withdraw_fits l amt r : NoDup l -> internal_withdraw c s me l amt = Ok r ->
  a_bal (collect_acct now (in_list l) (l_acct L me)) < U128_SIZE.
Proof.
  intros Hnd H. destruct r as [s' e]. apply withdraw_inv in H as (v & v1 & total & Hv & _ & _ & Hm & _).
  apply get_voter_Some in Hv. subst v. apply clear_fits with (v1 := v1); [exact Hnd|].
  destruct l; [subst v1; reflexivity|exact Hm].
Qed.

Lemma relock_part_pos k p t afp afb :
  v_lps (get_voter s me) !! k = Some p -> lp_unl p = Some t ->
  a_pos (relock_part now k (lpp p) afp afb (l_acct L me)) =
  if now <? ends (lpp p) t then <[k := mkPos (lp_amount p - afp) (lp_days p) (power (lp_days p) (lp_amount p - afp)) (Some t)]> (map lpp (v_lps (get_voter s me)))
  else map lpp (swap_remove k (v_lps (get_voter s me))).
Proof.
  intros Hk Hu. unfold relock_part. assert (E : p_since (lpp p) = Some t) by exact Hu. rewrite E.
  destruct (now <? ends (lpp p) t); cbn [a_pos set]; rewrite pos_list; [reflexivity|].
  apply take_out_map. eapply lookup_lt_Some; exact Hk.
Qed.

End Fits.
