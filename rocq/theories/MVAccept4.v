(** MVAccept4.v -- C71: voting and the calls that add no tokens never exceed 128 bits. *)

From Verif Require Export MVAccept3.

Lemma sum_by_le {A} (f g : A -> N) l : (forall x, In x l -> f x <= g x) -> sum_by f l <= sum_by g l.
Proof.
  induction l as [|x l IH]; intros H; [reflexivity|]. rewrite !sum_by_cons.
  pose proof (H x (or_introl eq_refl)). specialize (IH (fun y Hy => H y (or_intror Hy))). lia.
Qed.

Section Fit.
Context (P : string -> string -> Prop) (s : state) (G : good P s) (c : ctx).

(** all votes for an object and the free power of any one voter fit together in 128 bits *)
Lemma votes_fit vid a o : get_total_votes s a o + v_avail (get_voter s vid) < U128_SIZE.
Proof.
  pose proof (g_s _ _ G) as HS. pose proof (si_inv _ _ HS) as HI. pose proof (i_bnd _ _ _ HI) as Hb.
  rewrite (i_tot _ _ _ HI) in Hb. unfold pw in Hb.
  rewrite (om_sum_add (fun _ v => v_avail v) (fun _ v => used_raw (hp_vp s) (hp_vv s) (v_vp v))) in Hb.
  assert (H1 : v_avail (get_voter s vid) <= om_sum (fun _ v => v_avail v) (voters s)).
  { unfold get_voter. destruct (om_get (voters s) vid) as [v|] eqn:E; cbn; [|lia].
    apply (om_sum_ge (fun _ v => v_avail v) _ _ _ E). }
  assert (H2 : get_total_votes s a o <= om_sum (fun _ v => used_raw (hp_vp s) (hp_vv s) (v_vp v)) (voters s)).
  { rewrite (si_tot _ _ HS). unfold voter_ids, om_sum. unfold sum_by at 1. rewrite map_map.
    apply (sum_by_le (fun p => votes_or0 s p.1 a o)). intros [k v] Hin.
    apply (om_In_get _ _ _ (i_nd _ _ _ HI)) in Hin.
    destruct (si_ex _ _ HS k) as [L HX]. cbn [fst snd]. rewrite (votes_or0_exact P _ _ _ a o HX).
    unfold get_voter in HX. rewrite Hin in HX. cbn in HX |- *.
    rewrite (used_raw_rep _ _ _ _ _ (ve_rep _ _ _ _ _ _ HX)). apply used_ge. }
  lia.
Qed.

Definition yes {A} (r : res A) : Prop := exists x, r = Ok x.

Lemma yes_Ok {A} (x : A) : yes (Ok x).
Proof. exists x; reflexivity. Qed.
Lemma yes_bind {A B} (r : res A) (f : A -> res B) :
  yes r -> (forall x, r = Ok x -> yes (f x)) -> yes (x ← r; f x).
Proof. intros [x ->] H. apply (H x eq_refl). Qed.
Lemma yes_noeff r : yes r -> yes (noeff r).
Proof. intros [x ->]. eexists. reflexivity. Qed.
Lemma yes_require b m : b = true -> yes (require b m).
Proof. intros ->. apply yes_Ok. Qed.
Lemma yes_add a b : a + b < U128_SIZE -> yes (add128 a b).
Proof. intros H. exists (a + b). apply add128_Ok. auto. Qed.
Lemma yes_sub a b : b <= a -> yes (sub128 a b).
Proof. intros H. exists (a - b). apply sub128_Ok. auto. Qed.

Ltac yreq := apply yes_bind; [apply yes_require|intros _ _].

Lemma yes_unvote vid addr obj : can_unvote s (now_ms c) vid addr obj -> yes (internal_unvote c s vid addr obj).
Proof.
  intros [Hp Hl]. destruct (si_ex _ _ (g_s _ _ G) vid) as [L HX].
  destruct (unvote_total P c s vid addr obj (lvotes L addr obj) (g_s _ _ G)) as [s' E]; auto.
  - apply (get_votes_exact P _ _ _ _ _ HX).
  - rewrite <- (votes_or0_exact P _ _ _ _ _ HX). exact Hp.
  - exists s'. exact E.
Qed.

Lemma yes_increase t x addr obj : get_total_votes t addr obj + x < U128_SIZE -> yes (increase_total_votes t x addr obj).
Proof.
  intros H. unfold increase_total_votes. apply yes_bind; [apply yes_add|intros; apply yes_Ok].
  unfold get_total_votes in H. destruct (om_get (votes t) addr); exact H.
Qed.

Lemma yes_vote vid vp addr obj :
  P vid addr -> 0 < vp -> can_vote s vid vp -> yes (internal_vote s vid vp addr obj).
Proof.
  intros HP Hvp (Hr & Ha & Hv). destruct (si_ex _ _ (g_s _ _ G) vid) as [L HX].
  apply (voted_len P s vid L _ HX) in Hv. cbn in Hv. unfold get_available_voting_power in Ha.
  pose proof (votes_fit vid addr obj) as Hfit. destruct (sinv_own P s vid L addr obj (g_s _ _ G) HX) as [Htot _].
  unfold internal_vote. rewrite (gvop _ _ (reg_voter _ _ Hr)). cbn [mbind res_bind].
  apply yes_bind; [|intros [? ?] _; apply yes_Ok]. unfold internal_create_voting_position.
  yreq; [apply N.leb_le; exact Ha|]. yreq; [apply N.leb_le; exact Hv|].
  rewrite (gvp_exact P _ _ _ _ _ HX). cbn [mbind res_bind].
  rewrite (ve_uget_inner P _ _ _ _ _ HX _ obj HP). cbn [mbind res_bind].
  apply yes_bind; [apply yes_sub; exact Ha|]. intros av _. rewrite <- lvotes_imap.
  apply yes_bind; [apply yes_add; lia|]. intros x Ex. apply add128_Ok in Ex as [-> _].
  destruct (ve_set P _ _ _ _ _ HX addr obj (lvotes L addr obj + vp) HP ltac:(lia))
    as (hv' & h' & hp' & hd' & E1 & E2 & _).
  rewrite E1. cbn [mbind res_bind]. rewrite E2. cbn [mbind res_bind].
  apply yes_bind; [|intros; apply yes_Ok]. apply yes_increase.
  change (get_total_votes s addr obj + vp < U128_SIZE). lia.
Qed.

Lemma yes_rebalance vp addr obj :
  let me := c_pred c in
  c_deposit c = 0 -> 0 < votes_or0 s me addr obj -> vp <> votes_or0 s me addr obj ->
  (vp = 0 -> ~ lock_in_applies s (now_ms c) addr obj) ->
  vp <= votes_or0 s me addr obj + get_available_voting_power s me -> yes (rebalance c s vp addr obj).
Proof.
  intros me H0 Hp Hne Hl Hle. destruct (si_ex _ _ (g_s _ _ G) me) as [L HX].
  pose proof (votes_or0_exact P _ _ _ addr obj HX) as Ev. pose proof (votes_fit me addr obj) as Hfit.
  unfold rebalance. rewrite np0 by exact H0. cbn [mbind res_bind]. cbn zeta. fold me.
  destruct (sinv_own P s me L addr obj (g_s _ _ G) HX) as [Htot Hv]. specialize (Hv ltac:(lia)).
  rewrite (gvop _ _ Hv). cbn [mbind res_bind]. rewrite (gvp_exact P _ _ _ _ _ HX). cbn [mbind res_bind].
  destruct (lvotes_P P _ _ _ _ _ HX addr obj ltac:(lia)) as [HP Hx].
  rewrite (ve_uget_inner P _ _ _ _ _ HX _ obj HP). cbn [mbind res_bind]. rewrite Hx. cbn [expect mbind res_bind].
  yreq; [apply negb_true_iff, N.eqb_neq; congruence|].
  destruct (N.eqb_spec vp 0) as [->|Hz]; [apply yes_unvote; split; auto|].
  unfold get_available_voting_power in Hle. rewrite Ev in *.
  apply yes_bind.
  - destruct (N.ltb_spec (lvotes L addr obj) vp) as [Hlt|Hge].
    + apply yes_bind; [apply yes_sub; lia|]. intros ad Ead. apply sub128_Ok in Ead as [-> _].
      yreq; [apply N.leb_le; lia|]. apply yes_bind; [apply yes_sub; lia|]. intros av _.
      apply yes_bind; [apply yes_add; lia|]. intros vts _. apply yes_bind; [|intros; apply yes_Ok].
      apply yes_increase. lia.
    + apply yes_bind; [apply yes_sub; lia|]. intros rm Erm. apply sub128_Ok in Erm as [-> _].
      apply yes_bind; [apply yes_add; lia|]. intros av _. apply yes_bind; [apply yes_sub; lia|]. intros vts _.
      destruct (decrease_total s (lvotes L addr obj - vp) addr obj) as [s1 ->]; [lia|lia|]. apply yes_Ok.
  - intros [[s1 av] vts'] Em.
    assert (hp_vv s1 = hp_vv s /\ hp_vp s1 = hp_vp s /\ 0 < vts') as (-> & -> & Hvt).
    { destruct (N.ltb_spec (lvotes L addr obj) vp) as [Hlt|Hge].
      - apply bind_Ok in Em as (ad & Ead & Em). apply sub128_Ok in Ead as [-> _]. apply bind_Ok in Em as (? & _ & Em).
        apply bind_Ok in Em as (? & _ & Em). apply bind_Ok in Em as (y & Ey & Em). apply add128_Ok in Ey as [-> _].
        apply bind_Ok in Em as (s2 & Hi & [= -> _ <-]). apply increase_total_inv in Hi as [vs ->].
        split; [reflexivity|]. split; [reflexivity|]. lia.
      - apply bind_Ok in Em as (ad & Ead & Em). apply sub128_Ok in Ead as [-> _]. apply bind_Ok in Em as (? & _ & Em).
        apply bind_Ok in Em as (y & Ey & Em). apply sub128_Ok in Ey as [-> _].
        apply bind_Ok in Em as (s2 & Hi & [= -> _ <-]). apply decrease_total_inv in Hi as [vs ->].
        split; [reflexivity|]. split; [reflexivity|]. lia. }
    destruct (ve_set P _ _ _ _ _ HX addr obj vts' HP Hvt) as (hv' & h' & hp' & hd' & E1 & E2 & _).
    rewrite E1. cbn [mbind res_bind]. rewrite E2. apply yes_Ok.
Qed.

Lemma allowed_yes o : adds_no_tokens o = true -> tgt P c o -> allowed c s o -> yes (exec c s o).
Proof.
  intros Hno Ht H. destruct o; try discriminate Hno; cbn [exec]; cbn [allowed] in H; cbv zeta in H; cbn [tgt] in Ht;
    cbn [get_contract_info ci_owner ci_operator ci_mpdao ci_stnear ci_prev_gov ci_reg_cost ci_min_deposit ci_max_lps ci_max_vps
         ci_min_unbond ci_max_unbond] in H; try apply yes_noeff.
  - destruct H as [H1 H2]. unfold set_stnear_contract. rewrite y1, own1 by assumption. apply yes_Ok.
  - destruct H as [H1 H2]. unfold set_operator_id. rewrite y1, own1 by assumption. apply yes_Ok.
  - destruct H as [H1 H2]. unfold set_owner_id. rewrite y1, own1 by assumption. apply yes_Ok.
  - destruct H as [H1 H2]. unfold update_registration_cost. rewrite np0, own1 by assumption. apply yes_Ok.
  - unfold update_airdrop_user_data. yreq; [apply N.eqb_eq; exact H|apply yes_Ok].
  - destruct H as [H1 H2]. unfold operator_multi_set_airdrop_data. rewrite np0, opr1 by assumption. apply yes_Ok.
  - destruct H as [H0 H]. destruct (c18_claim_stnear c s amount (g_c _ _ G) H0 H) as [s' E]. eexists; exact E.
  - destruct H as (H0 & j & Hj & Hv). apply get_pos in Hj as (p & Hp & ->). rewrite np0 by exact H0. cbn [mbind res_bind].
    unfold unlock_position. cbn zeta. rewrite (gvop _ _ (pos_voter _ _ _ _ Hp)). cbn [mbind res_bind].
    unfold get_position. rewrite Hp. cbn [expect mbind res_bind]. yreq; [apply N.leb_le; exact Hv|].
    apply yes_bind; [apply yes_sub; exact Hv|]. intros; apply yes_Ok.
  - destruct H as [H0 H]. destruct Ht as [Ht Hz]. unfold vote. rewrite np0 by exact H0. cbn [mbind res_bind].
    apply yes_vote; auto. lia.
  - destruct H as (H0 & H1 & H2 & H3 & H4). apply yes_rebalance; auto.
  - destruct H as [H0 H]. unfold unvote. rewrite np0 by exact H0. cbn [mbind res_bind]. apply yes_unvote; auto.
  - destruct H as [H1 H2]. unfold set_lock_in_vote_filters. rewrite np0, opr1 by assumption. apply yes_Ok.
  - destruct H as [H1 H2]. unfold update_min_unbond_period. rewrite y1, own1 by assumption. apply yes_Ok.
  - destruct H as [H1 H2]. unfold update_max_unbond_period. rewrite y1, own1 by assumption. apply yes_Ok.
  - destruct H as [H1 H2]. unfold set_prev_gov_contract. rewrite y1, own1 by assumption. apply yes_Ok.
  - destruct H as [H1 H2]. unfold pre_delegate_evm_address. rewrite y1 by exact H1. cbn [mbind res_bind]. yreq; [|apply yes_Ok].
    apply negb_true_iff. destruct (str_contains "." evm) eqn:E; [apply str_contains_occurs in E; contradiction|reflexivity].
  - destruct H as [H1 H2]. unfold operator_remove_pre_delegate. rewrite y1, opr1 by assumption. apply yes_Ok.
  - destruct H as [H1 H2]. destruct (c22_confirm c s evm (g_d _ _ G) H1 H2) as [s' E]. cbn [exec] in E.
    apply noeff_Ok in E as [E _]. eexists; exact E.
  - destruct H as [H1 H2]. unfold delegated_claim_stnear. rewrite (verify_ok P s G) by exact H1. cbn [mbind res_bind].
    unfold remove_claimable_stnear. rewrite (remove_claimable_fwd _ _ _ _ (proj2 (g_c _ _ G)) H2). apply yes_Ok.
  - destruct H as (H0 & H1 & H2). destruct Ht as [Ht Hz]. unfold vote_delegated. rewrite np0 by exact H0. cbn [mbind res_bind].
    rewrite (verify_ok P s G) by exact H1. cbn [mbind res_bind]. apply yes_vote; auto. lia.
  - destruct H as (H0 & H1 & H2). unfold unvote_delegated. rewrite np0 by exact H0. cbn [mbind res_bind].
    rewrite (verify_ok P s G) by exact H1. cbn [mbind res_bind]. apply yes_unvote; auto.
  - destruct H as [H1 H2]. destruct (c22_remove c s evm (g_d _ _ G) H1 H2) as [s' E]. cbn [exec] in E.
    apply noeff_Ok in E as [E _]. eexists; exact E.
Qed.

End Fit.

Lemma c71_no_tokens a s0 tr c o :
  mv_new a = Ok s0 -> collision_free (tr ++ [(c, o)]) -> no_zero_votes (tr ++ [(c, o)]) -> adds_no_tokens o = true ->
  (exists s' e, exec c (run s0 tr) o = Ok (s', e)) <-> allowed c (run s0 tr) o.
Proof.
  intros H0 Hc Hz Hno. pose proof (good_run a s0 tr [(c, o)] H0 Hc Hz) as G.
  assert (Ht : tgt (targetsP (tr ++ [(c, o)])) c o).
  { destruct o; try exact I; (split; [|exact (last_nonzero tr _ Hz)]).
    - exact (last_target tr (c, Vote vp addr obj) (c_pred c, addr) eq_refl).
    - exact (last_target tr (c, VoteDelegated evm vp addr obj) (evm_account evm, addr) eq_refl). }
  split.
  - intros (s' & e & H). apply (ok_allowed _ _ G) in H; [exact H| |exact Ht]. destruct o; try exact I; discriminate Hno.
  - intros Ha. apply (allowed_yes _ _ G) in Ha as [[s' e] E]; [|assumption..]. exists s', e. exact E.
Qed.
