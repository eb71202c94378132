(** MVPositions.v -- for C100: deposits, locking positions and claims, on the bytes of the storage and on the state of MetaVote.v. *)

From Verif Require Export MVSim.
From Verif Require Import FlatProofs MigrateProofs WireProofs EntryProofs AskProofs KVBytesProofs MpipSized.
Import MetaVote MVSized FlatProofs BoardBytes BoardStore BoardSim MVBytes MVCells MVStore MVRep MVSim KVBytesProofs.

Ltac same := eapply sim_same; let u := fresh "u" in let E := fresh "Eu" in intros u E.
Ltac same_ := eapply sim_same; intros [] _.

Section Pos.
Variables (H : string -> string) (NM : string -> Prop).
Hypothesis H32 : hash32 H.
Hypothesis Hinj : forall x y, NM x -> NM y -> H x = H y -> x = y.
Notation Inv := (Inv H NM). Notation bvo := (bvo H). Notation tbt := (tbt H). Notation tbh := (tbh H). Notation WV := (WV NM). Notation WT := (WT NM). Notation VP := (VP NM).
Notation RX := (RX H NM). Notation After := (After H NM). Notation Hold := (Hold H NM). Notation Pr := (Pr H NM).

Lemma get_pos_at v i p : get_position v i = Ok p -> v_lps v !! i = Some p.
Proof using. unfold get_position. destruct (v_lps v !! i); [intros [= <-]; reflexivity|discriminate]. Qed.
Lemma now_okay c : c_ts c < U64_SIZE -> fits64 (now_ms c).
Proof using. intros L. pose proof (now_fits c L). unfold fits64. change (2 ^ 64) with U64_SIZE. lia. Qed.
Lemma hold_bal n id s v x : Hold n id s v x -> fits128 (v_bal v). Proof using. intros [(_ & _ & L & _) _]. exact L. Qed.
Lemma hold_av n id s v x : Hold n id s v x -> fits128 (v_avail v). Proof using. intros [(_ & _ & _ & L & _) _]. exact L. Qed.
Lemma hold_root n id s v x : Hold n id s v x -> xr x = mroot s. Proof using. intros [_ [E _]]. exact E. Qed.

Lemma bvo_rep id v i p : bvo id (replace_position v i p) = bvo id v.
Proof using. unfold MVStore.bvo, replace_position. cbn [v_bal v_lps v_avail v_vp set]. rewrite insert_length. reflexivity. Qed.
Lemma bvo_av id v i p a : bvo id (replace_position v i p <| v_avail := a |>) = bvo id v <| w_avail := a |>.
Proof using. rewrite <- (bvo_rep id v i p). reflexivity. Qed.
Lemma increase_sim n id s v x i amount days : Hold n id s v x -> cap n -> sim (Pr n id) (increase_locking_position s v i amount days) (xb_increase x (bvo id v) i amount days).
Proof using H32 Hinj.
  intros Hh cn. unfold increase_locking_position, xb_increase. same. rewrite (h_pos H NM _ _ _ _ _ i Hh). eapply sim_same. intros p Ep. apply get_pos_at in Ep. pose proof (h_at H NM _ _ _ _ _ _ _ Hh Ep) as (O1 & O2 & O3 & O4). same. same.
  destruct (h_replace H NM H32 Hinj n id s v x i (p <| lp_amount := u0 |> <| lp_vp := u1 |>) p Hh cn Ep) as (x' & E & Hh' & Er).
  { repeat split; [exact (add128_fits _ _ _ Eu0)|exact O2|exact (add128_fits _ _ _ Eu1)|exact O4]. }
  rewrite E. cbn [mbind res_bind]. same. rewrite (hold_root _ _ _ _ _ Hh). same. apply sim_ok. split; [symmetry; apply bvo_av|]. cbn [fst snd].
  eapply h_field; [apply h_total; exact Hh'|reflexivity|reflexivity|exact (hold_bal _ _ _ _ _ Hh)|exact (add128_fits _ _ _ Eu2)].
Qed.
Lemma room_same n id s v x : Hold n id s v x -> xb_room x (bvo id v) = assert_lps_room s v.
Proof using. intros Hh. unfold xb_room, assert_lps_room. rewrite (hold_root _ _ _ _ _ Hh). reflexivity. Qed.
Lemma create_sim n id s v x amount days : Hold n id s v x -> cap (S n) -> fits128 amount -> sim (Pr (S n) id) (internal_create_locking_position s v amount days) (xb_create x (bvo id v) amount days).
Proof using H32 Hinj.
  intros Hh cn La. unfold internal_create_locking_position, xb_create. rewrite (room_same _ _ _ _ _ Hh). same_. rewrite (h_find H NM _ _ _ _ _ days Hh). cbn [mbind res_bind]. same_. same.
  destruct (calc_fits _ _ _ Eu) as [F1 F2]. destruct (h_push H NM H32 Hinj n id s v x (mkLpos amount days u None) Hh cn) as (x' & E & Hh' & Er).
  { repeat split; [exact La|exact F2|exact F1]. }
  rewrite E. cbn [mbind res_bind]. same. rewrite Er, (hold_root _ _ _ _ _ Hh). same. apply sim_ok. split; [reflexivity|]. cbn [fst snd].
  eapply h_field; [apply h_total; exact Hh'|reflexivity|reflexivity|exact (hold_bal _ _ _ _ _ Hh)|exact (add128_fits _ _ _ Eu0)].
Qed.
Lemma pr_mono n m id a b : Pr n id a b -> (n <= m)%nat -> Pr m id a b.
Proof using. intros [A B] L. split; [exact A|exact (hold_mono H NM _ _ _ _ _ _ B L)]. Qed.
Definition Dep (n : nat) (id : string) (a : state * voter) (b : bx * bvoter) : Prop := Pr n id a b /\ After n a.1 b.1.
Lemma saved n id s v x : After n (save_voter s id v) x -> WV n id v -> Hold n id (save_voter s id v) v x.
Proof using. intros A W. split; [exact W|]. eapply rx_ext; [exact A|]. intros j. destruct (decide (j = id)) as [->|N]; [rewrite <- posl_save, !upd_eq; reflexivity|rewrite upd_ne by exact N; reflexivity]. Qed.
Lemma deposit_sim n id s v x amount days : Hold n id s v x -> cap (S (S n)) -> fits128 amount ->
  sim (Dep (S (S n)) id) (deposit_locking_position s amount days id v) (xb_deposit x amount days id (bvo id v)).
Proof using H32 Hinj.
  intros Hh cn La. unfold deposit_locking_position, xb_deposit. rewrite (hold_root _ _ _ _ _ Hh). same_. rewrite (h_find H NM _ _ _ _ _ days Hh). cbn [mbind res_bind].
  eapply (sim_bind (Pr (S n) id)).
  - destruct (find_locked_position v days) as [i|]; [|apply create_sim; [exact Hh|(eapply cap_le; [exact cn|lia])|exact La]].
    eapply sim_imp; [apply increase_sim; [exact Hh|exact (cap_le n (S (S n)) cn ltac:(lia))]|]. intros a b _ P. exact (pr_mono _ _ _ _ _ P (Nat.le_succ_diag_r n)).
  - intros [s1 v1] [x1 w1] _ [Ew Hh1]. cbn [fst snd] in *. subst w1. destruct (h_save H NM H32 Hinj (S n) s1 x1 id v1 Hh1 cn) as (x2 & E & A). rewrite E. cbn [mbind res_bind]. apply sim_ok. split; [|exact A].
    split; [reflexivity|]. cbn [fst snd]. apply saved; [exact A|]. exact (WV_mono NM _ _ _ _ (proj1 Hh1) (Nat.le_succ_diag_r (S n))).
Qed.
Lemma deposit_after n m id s v x amount days : Hold n id s v x -> cap m -> (S (S n) <= m)%nat -> fits128 amount ->
  sim (After m) ('(s2, _) ← deposit_locking_position s amount days id v; Ok s2) ('(x2, _) ← xb_deposit x amount days id (bvo id v); Ok x2).
Proof using H32 Hinj.
  intros Hh cm Le La. eapply sim_bind; [apply deposit_sim; [exact Hh|exact (cap_le _ _ cm Le)|exact La]|]. intros [s2 v2] [x2 w2] _ [_ A]. apply sim_ok. exact (rx_mono H NM _ _ _ _ _ A Le).
Qed.
Lemma clear_one_sim n id s v x w now i : w = bvo id v /\ Hold n id s v x -> cap n ->
  sim (fun v' b => b.2 = bvo id v' /\ Hold n id s v' b.1) (clear_one now v i) (xb_clear_one now (x, w) i).
Proof using H32 Hinj.
  intros [-> Hh] cn. unfold clear_one, xb_clear_one. cbn [fst snd]. rewrite (h_pos H NM _ _ _ _ _ i Hh). same. destruct (is_unlocked now u); [|apply sim_ok; split; [reflexivity|exact Hh]]. same.
  assert (Hh' : Hold n id s (v <| v_bal := u0 |>) x) by (eapply h_field; [exact Hh|reflexivity|reflexivity|exact (add128_fits _ _ _ Eu0)|exact (hold_av _ _ _ _ _ Hh)]).
  eapply sim_imp; [exact (h_remove H NM H32 Hinj n id s _ x i Hh' cn)|]. intros a b _ (A & B & _). split; assumption.
Qed.
Lemma clear_sim n id s v x now l : Hold n id s v x -> cap n ->
  sim (fun v' b => b.2 = bvo id v' /\ Hold n id s v' b.1) (clear_fully_unlocked_positions now v l) (xb_clear now x (bvo id v) l).
Proof using H32 Hinj.
  intros Hh cn. unfold clear_fully_unlocked_positions, xb_clear.
  pose proof (sim_foldM (fun k v' b => k = n /\ b.2 = bvo id v' /\ Hold n id s v' b.1) (clear_one now) (xb_clear_one now) 0 n (fun _ => True)) as F.
  eapply sim_imp; [apply F with (n := n)|].
  - intros k a [xb wb] j _ _ (-> & A & B). eapply sim_imp; [apply clear_one_sim; [split; [exact A|exact B]|exact cn]|]. intros a' b' _ [A' B']. split; [lia|split; assumption].
  - apply Forall_forall. auto.
  - lia.
  - split; [reflexivity|]. split; [reflexivity|exact Hh].
  - intros a b _ (_ & A & B). split; assumption.
Qed.

(** *** claims *)
Lemma mp_fits n s x k : After n s x -> fits128 (default 0 (om_get (claim_mp s) k)).
Proof using. intros A. pose proof (t_all _ _ _ _ _ _ (proj1 (proj2 A LMp Logic.I))) as F. cbn [gof gMp] in F. destruct (om_get (claim_mp s) k) eqn:E; [|reflexivity]. exact (proj2 (all_get _ _ _ _ F E)). Qed.
Lemma st_fits n s x k : After n s x -> fits128 (default 0 (om_get (claim_st s) k)).
Proof using. intros A. pose proof (t_all _ _ _ _ _ _ (proj1 (proj2 A LSt Logic.I))) as F. cbn [gof gSt] in F. destruct (om_get (claim_st s) k) eqn:E; [|reflexivity]. exact (proj2 (all_get _ _ _ _ F E)). Qed.
Ltac done_ I' := apply sim_ok; split; [reflexivity|]; eapply inv_ext; [exact I'|reflexivity..].
Lemma sub_mp_sim n s x k amt : After n s x -> cap (S n) -> str_fits k -> sim (After (S n)) (remove_claimable_mpdao s k amt) (xb_sub_mp x k amt).
Proof using H32 Hinj.
  intros A cn L. pose proof (mp_fits _ _ _ k A) as Lf. destruct x as [st r], A as [Er I0]. cbn [xst xr] in *. subst r. unfold remove_claimable_mpdao, xb_sub_mp, remove_claimable, xb_sub_claim. cbn [xst xr mroot n_claimable_mpdao n_total_unclaimed_mpdao].
  pose proof (rget_mp H NM _ _ _ k I0 L) as G. cbn [gof gMp] in G. rewrite G. cbn [mbind res_bind]. cbv zeta. destruct (require _ _) as [[]|]; cbn [mbind res_bind]; [|cbn; eauto]. destruct (sub128 (default 0 (om_get (claim_mp s) k)) amt) as [a|] eqn:Ea; cbn [mbind res_bind]; [|cbn; eauto].
  apply (sub128_fits _ _ _) in Ea; [|exact Lf]. destruct (a =? 0).
  - destruct (rdel_mp H NM H32 Hinj _ _ _ k I0 L) as (st' & E & I'). cbn [gof gMp] in E. rewrite E. cbn [mbind res_bind]. destruct (sub128 (uncl_mp s) amt) as [t|]; cbn [mbind res_bind]; [|cbn; eauto].
    apply (inv_mono H NM n (S n)) in I'; [|lia]. done_ I'.
  - destruct (rput_mp H NM H32 Hinj _ _ _ k a I0 cn (conj L Ea)) as (st' & E & I'). cbn [gof gMp] in E. rewrite E. cbn [mbind res_bind]. destruct (sub128 (uncl_mp s) amt) as [t|]; cbn [mbind res_bind]; [|cbn; eauto]. done_ I'.
Qed.
Lemma sub_st_sim n s x k amt : After n s x -> cap (S n) -> str_fits k -> sim (After (S n)) (remove_claimable_stnear s k amt) (xb_sub_st x k amt).
Proof using H32 Hinj.
  intros A cn L. pose proof (st_fits _ _ _ k A) as Lf. destruct x as [st r], A as [Er I0]. cbn [xst xr] in *. subst r. unfold remove_claimable_stnear, xb_sub_st, remove_claimable, xb_sub_claim. cbn [xst xr mroot n_claimable_stnear n_total_unclaimed_stnear].
  pose proof (rget_st H NM _ _ _ k I0 L) as G. cbn [gof gSt] in G. rewrite G. cbn [mbind res_bind]. cbv zeta. destruct (require _ _) as [[]|]; cbn [mbind res_bind]; [|cbn; eauto]. destruct (sub128 (default 0 (om_get (claim_st s) k)) amt) as [a|] eqn:Ea; cbn [mbind res_bind]; [|cbn; eauto].
  apply (sub128_fits _ _ _) in Ea; [|exact Lf]. destruct (a =? 0).
  - destruct (rdel_st H NM H32 Hinj _ _ _ k I0 L) as (st' & E & I'). cbn [gof gSt] in E. rewrite E. cbn [mbind res_bind]. destruct (sub128 (uncl_st s) amt) as [t|]; cbn [mbind res_bind]; [|cbn; eauto].
    apply (inv_mono H NM n (S n)) in I'; [|lia]. done_ I'.
  - destruct (rput_st H NM H32 Hinj _ _ _ k a I0 cn (conj L Ea)) as (st' & E & I'). cbn [gof gSt] in E. rewrite E. cbn [mbind res_bind]. destruct (sub128 (uncl_st s) amt) as [t|]; cbn [mbind res_bind]; [|cbn; eauto]. done_ I'.
Qed.
Lemma add_mp_sim n s x k amt : After n s x -> cap (S n) -> str_fits k -> sim (After (S n)) (add_claimable_mpdao s k amt) (xb_add_mp x k amt).
Proof using H32 Hinj.
  intros A cn L. destruct x as [st r], A as [Er I0]. cbn [xst xr] in *. subst r. unfold add_claimable_mpdao, xb_add_mp, add_claimable, xb_add_claim. cbn [xst xr mroot n_claimable_mpdao n_total_unclaimed_mpdao]. same_.
  pose proof (rget_mp H NM _ _ _ k I0 L) as G. cbn [gof gMp] in G. rewrite G. cbn [mbind res_bind]. destruct (add128 (default 0 (om_get (claim_mp s) k)) amt) as [a|] eqn:Ea; cbn [mbind res_bind]; [|cbn; eauto].
  destruct (rput_mp H NM H32 Hinj _ _ _ k a I0 cn (conj L (add128_fits _ _ _ Ea))) as (st' & E & I'). cbn [gof gMp] in E. rewrite E. cbn [mbind res_bind]. destruct (add128 (uncl_mp s) amt) as [t|]; cbn [mbind res_bind]; [|cbn; eauto]. done_ I'.
Qed.
Lemma add_st_sim n s x k amt : After n s x -> cap (S n) -> str_fits k -> sim (After (S n)) (add_claimable_stnear s k amt) (xb_add_st x k amt).
Proof using H32 Hinj.
  intros A cn L. destruct x as [st r], A as [Er I0]. cbn [xst xr] in *. subst r. unfold add_claimable_stnear, xb_add_st, add_claimable, xb_add_claim. cbn [xst xr mroot n_claimable_stnear n_total_unclaimed_stnear]. same_.
  pose proof (rget_st H NM _ _ _ k I0 L) as G. cbn [gof gSt] in G. rewrite G. cbn [mbind res_bind]. destruct (add128 (default 0 (om_get (claim_st s) k)) amt) as [a|] eqn:Ea; cbn [mbind res_bind]; [|cbn; eauto].
  destruct (rput_st H NM H32 Hinj _ _ _ k a I0 cn (conj L (add128_fits _ _ _ Ea))) as (st' & E & I'). cbn [gof gSt] in E. rewrite E. cbn [mbind res_bind]. destruct (add128 (uncl_st s) amt) as [t|]; cbn [mbind res_bind]; [|cbn; eauto]. done_ I'.
Qed.

(** *** the methods on positions *)
Lemma after_root n s x : After n s x -> xr x = mroot s. Proof using. intros [E _]. exact E. Qed.
Lemma claim_and_lock_sim n m c s x amount days : After n s x -> cap m -> (n + 3 <= m)%nat -> str_fits (c_pred c) -> fits128 amount ->
  sim (After m) (claim_and_lock c s amount days) (xb_claim_and_lock c x amount days).
Proof using H32 Hinj.
  intros A cm Le L La. unfold claim_and_lock, xb_claim_and_lock, assert_min_deposit_amount, xb_min_deposit. rewrite (after_root _ _ _ A). same_. same_. eapply sim_bind; [apply sub_mp_sim; [exact A|(eapply cap_le; [exact cm|lia])|exact L]|]. intros s1 x1 _ A1.
  eapply sim_bind; [apply (h_voter H NM H32 (S n)); [exact A1|(eapply cap_le; [exact cm|lia])|exact L]|]. intros v w _ [-> Hh]. eapply (deposit_after (S n)); [exact Hh|exact cm|lia|exact La].
Qed.
Lemma claim_stnear_sim n c s x amount : After n s x -> cap (S n) -> str_fits (c_pred c) ->
  sim (fun a b => After (S n) a.1 b.1 /\ a.2 = b.2) (claim_stnear c s amount) (xb_claim_stnear c x amount).
Proof using H32 Hinj.
  intros A cn L. unfold claim_stnear, xb_claim_stnear. same_. eapply sim_bind; [apply sub_st_sim; [exact A|exact cn|exact L]|]. intros s1 x1 _ A1. apply sim_ok. split; [exact A1|]. cbn [snd]. rewrite (after_root _ _ _ A1). reflexivity.
Qed.
Lemma unlock_sim n c s x i : After n s x -> cap (S n) -> str_fits (c_pred c) -> fits64 (now_ms c) -> sim (After (S n)) (unlock_position c s i) (xb_unlock c x i).
Proof using H32 Hinj.
  intros A cn L Lt. unfold unlock_position, xb_unlock. cbv zeta. pose proof (cap_le n (S n) cn ltac:(lia)) as c0. eapply sim_bind; [apply (h_voter H NM H32 n); [exact A|exact c0|exact L]|]. intros v w _ [-> Hh].
  rewrite (h_pos H NM _ _ _ _ _ i Hh). eapply sim_same. intros p Ep. apply get_pos_at in Ep. pose proof (h_at H NM _ _ _ _ _ _ _ Hh Ep) as (O1 & O2 & O3 & O4). same_.
  destruct (h_replace H NM H32 Hinj n _ s v x i (p <| lp_unl := Some (now_ms c) |>) p Hh c0 Ep) as (x' & E & Hh' & Er). { repeat split; assumption. }
  rewrite E. cbn [mbind res_bind]. same. rewrite (after_root _ _ _ A). erewrite <- bvo_av; apply (s_save H NM H32 Hinj n); [|exact cn|lia].
  eapply h_field; [apply h_total; exact Hh'|reflexivity|reflexivity|exact (hold_bal _ _ _ _ _ Hh)|exact (sub128_fits _ _ _ Eu (hold_av _ _ _ _ _ Hh))].
Qed.
Lemma unlock_partial_sim n c s x i amount : After n s x -> cap (S (S n)) -> str_fits (c_pred c) -> fits64 (now_ms c) -> fits128 amount -> sim (After (S (S n))) (unlock_partial_position c s i amount) (xb_unlock_partial c x i amount).
Proof using H32 Hinj.
  intros A cn L Lt La. unfold unlock_partial_position, xb_unlock_partial. cbv zeta. pose proof (cap_le n (S (S n)) cn ltac:(lia)) as c0. pose proof (cap_le (S n) (S (S n)) cn ltac:(lia)) as c1.
  eapply sim_bind; [apply (h_voter H NM H32 n); [exact A|exact c0|exact L]|]. intros v w _ [-> Hh].
  rewrite (h_pos H NM _ _ _ _ _ i Hh). eapply sim_same. intros p Ep. apply get_pos_at in Ep. pose proof (h_at H NM _ _ _ _ _ _ _ Hh Ep) as (O1 & O2 & O3 & O4).
  destruct (amount =? lp_amount p). { eapply sim_imp; [apply unlock_sim; [exact A|exact c1|exact L|exact Lt]|]. intros a b _ R. exact (rx_mono H NM _ _ _ _ _ R (Nat.le_succ_diag_r _)). }
  rewrite (after_root _ _ _ A). same_. same. same_. same_. same. same_. same_. unfold create_unlocking_position, xb_create_unlocking. rewrite (room_same _ _ _ _ _ Hh).
  destruct (assert_lps_room s v) as [[]|]; cbn [mbind res_bind]; [|cbn; eauto]. destruct (calc_fits _ _ _ Eu0) as [F1 F2].
  destruct (h_push H NM H32 Hinj n _ s v x (mkLpos amount (lp_days p) u0 (Some (now_ms c))) Hh c1) as (x1 & E1 & Hh1 & Er1). { repeat split; assumption. }
  rewrite E1. cbn [mbind res_bind]. same. same. same_. same.
  assert (Ep' : v_lps (v <| v_lps := v_lps v ++ [mkLpos amount (lp_days p) u0 (Some (now_ms c))] |>) !! i = Some p). { cbn [v_lps set]. apply lookup_app_l_Some. exact Ep. }
  destruct (h_replace H NM H32 Hinj (S n) _ s _ x1 i (p <| lp_vp := u1 |> <| lp_amount := u2 |>) p Hh1 c1 Ep') as (x' & E & Hh' & Er).
  { repeat split; [exact (sub128_fits _ _ _ Eu2 O1)|exact O2|exact (sub128_fits _ _ _ Eu1 O3)|exact O4]. }
  rewrite E. cbn [mbind res_bind]. erewrite <- bvo_av; apply (s_save H NM H32 Hinj (S n)); [|exact cn|lia].
  eapply h_field; [apply h_total; exact Hh'|reflexivity|reflexivity|exact (hold_bal _ _ _ _ _ Hh)|exact (sub128_fits _ _ _ Eu3 (hold_av _ _ _ _ _ Hh))].
Qed.
Lemma extend_sim n c s x i days : After n s x -> cap (S n) -> str_fits (c_pred c) -> sim (After (S n)) (locking_position_extend_days c s i days) (xb_extend c x i days).
Proof using H32 Hinj.
  intros A cn L. unfold locking_position_extend_days, xb_extend. cbv zeta. pose proof (cap_le n (S n) cn ltac:(lia)) as c0. same_. eapply sim_bind; [apply (h_voter H NM H32 n); [exact A|exact c0|exact L]|]. intros v w _ [-> Hh].
  rewrite (h_pos H NM _ _ _ _ _ i Hh). eapply sim_same. intros p Ep. apply get_pos_at in Ep. pose proof (h_at H NM _ _ _ _ _ _ _ Hh Ep) as (O1 & O2 & O3 & O4). rewrite (after_root _ _ _ A). same_. same_. same. same. same. same.
  destruct (calc_fits _ _ _ Eu) as [F1 F2].
  destruct (h_replace H NM H32 Hinj n _ s v x i (p <| lp_days := days |> <| lp_vp := u |>) p Hh c0 Ep) as (x' & E & Hh' & Er). { repeat split; assumption. }
  rewrite E. cbn [mbind res_bind]. erewrite <- bvo_av; apply (s_save H NM H32 Hinj n); [|exact cn|lia].
  eapply h_field; [apply h_total; exact Hh'|reflexivity|reflexivity|exact (hold_bal _ _ _ _ _ Hh)|exact (add128_fits _ _ _ Eu2)].
Qed.
Lemma relock_sim n c s x i days afb : After n s x -> cap (S (S n)) -> str_fits (c_pred c) -> sim (After (S (S n))) (relock_position c s i days afb) (xb_relock c x i days afb).
Proof using H32 Hinj.
  intros A cn L. unfold relock_position, xb_relock. cbv zeta. pose proof (cap_le n (S (S n)) cn ltac:(lia)) as c0. same_. eapply sim_bind; [apply (h_voter H NM H32 n); [exact A|exact c0|exact L]|]. intros v w _ [-> Hh].
  rewrite (h_pos H NM _ _ _ _ _ i Hh). same. same_. same. same_. same. eapply sim_bind; [apply (h_remove H NM H32 Hinj n); [exact Hh|exact c0]|]. intros v1 [x1 w1] _ (Ew & Hh1 & Er). cbn [fst snd] in *. subst w1. same.
  apply (deposit_after n); [|exact cn|lia|exact (add128_fits _ _ _ Eu1)]. eapply h_field; [exact Hh1|reflexivity|reflexivity|exact (sub128_fits _ _ _ Eu2 (hold_bal _ _ _ _ _ Hh1))|exact (hold_av _ _ _ _ _ Hh1)].
Qed.
Lemma relock_partial_sim n c s x i afp days afb : After n s x -> cap (S (S n)) -> str_fits (c_pred c) -> sim (After (S (S n))) (relock_partial_position c s i afp days afb) (xb_relock_partial c x i afp days afb).
Proof using H32 Hinj.
  intros A cn L. unfold relock_partial_position, xb_relock_partial. cbv zeta. pose proof (cap_le n (S (S n)) cn ltac:(lia)) as c0. rewrite (after_root _ _ _ A). same_. eapply sim_bind; [apply (h_voter H NM H32 n); [exact A|exact c0|exact L]|]. intros v w _ [-> Hh].
  rewrite (h_pos H NM _ _ _ _ _ i Hh). eapply sim_same. intros p Ep. apply get_pos_at in Ep. pose proof (h_at H NM _ _ _ _ _ _ _ Hh Ep) as (O1 & O2 & O3 & O4). same_. same_. same. same_. same.
  eapply (sim_bind (fun v' b => b.2 = bvo (c_pred c) v' /\ Hold n (c_pred c) s v' b.1)).
  - destruct (now_ms c <? u0 + days_to_millis (lp_days p)).
    + same_. same. same_. same_. same. destruct (calc_fits _ _ _ Eu2) as [F1 F2].
      destruct (h_replace H NM H32 Hinj n _ s v x i (p <| lp_amount := u1 |> <| lp_vp := u2 |>) p Hh c0 Ep) as (x' & E & Hh' & Er). { repeat split; [exact (sub128_fits _ _ _ Eu1 O1)|exact O2|exact F1|exact O4]. }
      rewrite E. cbn [mbind res_bind]. apply sim_ok. split; [symmetry; apply bvo_rep|exact Hh'].
    + same. same. change (bvo (c_pred c) v <| w_bal := u2 |>) with (bvo (c_pred c) (v <| v_bal := u2 |>)). eapply sim_imp; [apply (h_remove H NM H32 Hinj n (c_pred c) s (v <| v_bal := u2 |>) x i); [|exact c0]|intros a b _ (X & Y & _); split; assumption].
      eapply h_field; [exact Hh|reflexivity|reflexivity|exact (add128_fits _ _ _ Eu2)|exact (hold_av _ _ _ _ _ Hh)].
  - intros v1 [x1 w1] _ (Ew & Hh1). cbn [fst snd] in *. subst w1. same. apply (deposit_after n); [|exact cn|lia|exact (add128_fits _ _ _ Eu)].
    eapply h_field; [exact Hh1|reflexivity|reflexivity|exact (sub128_fits _ _ _ Eu1 (hold_bal _ _ _ _ _ Hh1))|exact (hold_av _ _ _ _ _ Hh1)].
Qed.
Lemma relock_balance_sim n c s x days amount : After n s x -> cap (S (S n)) -> str_fits (c_pred c) -> fits128 amount -> sim (After (S (S n))) (relock_from_balance c s days amount) (xb_relock_from_balance c x days amount).
Proof using H32 Hinj.
  intros A cn L La. unfold relock_from_balance, xb_relock_from_balance. cbv zeta. pose proof (cap_le n (S (S n)) cn ltac:(lia)) as c0. rewrite (after_root _ _ _ A). same_. eapply sim_bind; [apply (h_voter H NM H32 n); [exact A|exact c0|exact L]|]. intros v w _ [-> Hh].
  same_. same_. same. apply (deposit_after n); [|exact cn|lia|exact La]. eapply h_field; [exact Hh|reflexivity|reflexivity|exact (sub128_fits _ _ _ Eu (hold_bal _ _ _ _ _ Hh))|exact (hold_av _ _ _ _ _ Hh)].
Qed.
Lemma clear_positions_sim n c s x l : After n s x -> cap (S n) -> str_fits (c_pred c) -> sim (After (S n)) (clear_locking_position c s l) (xb_clear_positions c x l).
Proof using H32 Hinj.
  intros A cn L. unfold clear_locking_position, xb_clear_positions. cbv zeta. pose proof (cap_le n (S n) cn ltac:(lia)) as c0. same_. same_. eapply sim_bind; [apply (h_voter H NM H32 n); [exact A|exact c0|exact L]|]. intros v w _ [-> Hh].
  eapply sim_bind; [apply (clear_sim n); [exact Hh|exact c0]|]. intros v1 [x1 w1] _ [E Hh1]. cbn [fst snd] in *. subst w1. apply (s_save H NM H32 Hinj n); [exact Hh1|exact cn|lia].
Qed.
Lemma withdraw_sim n c s x vid l amt : After n s x -> cap (S n) -> str_fits vid -> sim (fun a b => After (S n) a.1 b.1 /\ a.2 = b.2) (internal_withdraw c s vid l amt) (xb_withdraw c x vid l amt).
Proof using H32 Hinj.
  intros A cn L. unfold internal_withdraw, xb_withdraw. cbv zeta. pose proof (cap_le n (S n) cn ltac:(lia)) as c0. same_. eapply sim_bind; [apply (h_voter H NM H32 n); [exact A|exact c0|exact L]|]. intros v w _ [-> Hh].
  eapply (sim_bind (fun v' b => b.2 = bvo vid v' /\ Hold n vid s v' b.1)). { destruct l; [apply sim_ok; split; [reflexivity|exact Hh]|]. apply clear_sim; assumption. }
  intros v1 [x1 w1] _ [E Hh1]. cbn [fst snd] in *. subst w1. same_. same_. same.
  assert (Hh2 : Hold n vid s (v1 <| v_bal := u |>) x1) by (eapply h_field; [exact Hh1|reflexivity|reflexivity|exact (sub128_fits _ _ _ Eu (hold_bal _ _ _ _ _ Hh1))|exact (hold_av _ _ _ _ _ Hh1)]).
  match goal with |- sim _ _ ((if ?b then _ else _) ≫= _) => assert (Eb : b = voter_is_empty (v1 <| v_bal := u |>)) end.
  { unfold voter_is_empty. cbn [v_bal v_lps set MVStore.bvo w_bal w_lps vh_len]. destruct (v_lps v1); reflexivity. }
  rewrite Eb. destruct (voter_is_empty (v1 <| v_bal := u |>)) eqn:Ee.
  - destruct (h_drop H NM H32 Hinj n s x1 vid _ Hh2 c0) as (x2 & E & A2). { unfold voter_is_empty in Ee. apply andb_prop in Ee as [_ Ee]. destruct (v_lps _); [reflexivity|discriminate]. }
    rewrite E. cbn [mbind res_bind]. apply sim_ok. split; [exact (rx_mono H NM _ _ _ _ _ A2 (Nat.le_succ_diag_r n))|reflexivity].
  - destruct (h_save H NM H32 Hinj n s x1 vid _ Hh2 cn) as (x2 & E & A2). match goal with |- sim _ _ (?y ≫= _) => change (y = Ok x2) in E end. rewrite E. cbn [mbind res_bind]. apply sim_ok. split; [exact A2|reflexivity].
Qed.
Lemma withdraw_all_sim n c s x : After n s x -> cap (S n) -> str_fits (c_pred c) -> sim (fun a b => After (S n) a.1 b.1 /\ a.2 = b.2) (withdraw_all c s) (xb_withdraw_all c x).
Proof using H32 Hinj.
  intros A cn L. unfold withdraw_all, xb_withdraw_all. pose proof (cap_le n (S n) cn ltac:(lia)) as c0. eapply sim_bind; [apply (h_voter H NM H32 n); [exact A|exact c0|exact L]|]. intros v w _ [-> Hh].
  rewrite (h_idx H NM _ _ _ _ _ (now_ms c) Hh). cbn [mbind res_bind]. apply withdraw_sim; assumption.
Qed.
Lemma after_mp_sim n c s x vid amount ok self : After n s x -> cap (S n) -> str_fits vid -> NM vid -> self = self_id s -> sim (After (S n)) (after_transfer_mpdao_callback c s vid amount ok) (xb_after_mp H self c x vid amount ok).
Proof using H32 Hinj.
  intros A cn L N ->. unfold after_transfer_mpdao_callback, xb_after_mp. cbv zeta. same_. same_. destruct ok; [apply sim_ok; exact (rx_mono H NM _ _ _ _ _ A (Nat.le_succ_diag_r n))|].
  destruct (h_get H NM H32 n s x vid A (cap_le n (S n) cn ltac:(lia)) L N) as [E Hh]. rewrite E. cbn [mbind res_bind]. same. apply (s_save H NM H32 Hinj n); [|exact cn|lia]. eapply h_field; [exact Hh|reflexivity|reflexivity|exact (add128_fits _ _ _ Eu)|exact (hold_av _ _ _ _ _ Hh)].
Qed.
Lemma after_st_sim n c s x a amount ok self : After n s x -> cap (S n) -> str_fits a -> self = self_id s -> sim (After (S n)) (after_transfer_stnear_callback c s a amount ok) (xb_after_st self c x a amount ok).
Proof using H32 Hinj.
  intros A cn L ->. unfold after_transfer_stnear_callback, xb_after_st. same_. same_. destruct ok; [apply sim_ok; exact (rx_mono H NM _ _ _ _ _ A (Nat.le_succ_diag_r n))|]. apply add_st_sim; assumption.
Qed.
End Pos.
