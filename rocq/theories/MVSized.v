(** MVSized.v -- C88: every number the contract stores fits the type that holds it. *)

From Verif Require Export MVSpecSized MVCases MVStep.

Definition U (n : N) : Prop := n < U128_SIZE.
Definition okp (p : lpos) : Prop :=
  U (lp_amount p) /\ lp_days p < U16_SIZE /\ U (lp_vp p) /\ match lp_unl p with Some t => t * 1000000 < U64_SIZE | None => True end.
Definition okv (v : voter) : Prop := U (v_bal v) /\ U (v_avail v) /\ Forall okp (v_lps v).
Definition om_all {K V} (P : V -> Prop) (m : omap_t K V) : Prop := Forall (fun kv => P kv.2) m.
Definition okh (hp : heap N) : Prop := forall p i x, ce_vals (cell_at hp p) !! i = Some x -> U x.

Record OK (s : state) : Prop := {
  ok_min : min_unbond s < U16_SIZE; ok_max : max_unbond s < U16_SIZE; ok_dep : U (min_deposit s);
  ok_lps : max_lps s < U8_SIZE; ok_vps : max_vps s < U8_SIZE; ok_reg : U (reg_cost s);
  ok_end : lock_end s < U64_SIZE; ok_id : lock_id s < U16_SIZE;
  ok_total : U (total_vp s); ok_amp : U (accum_mp s); ok_ump : U (uncl_mp s); ok_ast : U (accum_st s); ok_ust : U (uncl_st s);
  ok_voters : om_all okv (voters s); ok_votes : om_all (om_all U) (votes s);
  ok_mp : om_all U (claim_mp s); ok_st : om_all U (claim_st s); ok_vv : okh (hp_vv s);
}.

(** *** Maps *)
Lemma om_all_get {K V} `{EqDecision K} (P : V -> Prop) (m : omap_t K V) k v : om_all P m -> om_get m k = Some v -> P v.
Proof.
  induction m as [|[k' v'] m IH]; intros Hm H; [discriminate|]. cbn [om_get] in H. apply Forall_cons in Hm as [Hv Hm].
  destruct (decide (k = k')); [injection H as <-; exact Hv|exact (IH Hm H)].
Qed.
Lemma om_all_set {K V} `{EqDecision K} (P : V -> Prop) (m : omap_t K V) k v : om_all P m -> P v -> om_all P (om_set m k v).
Proof.
  intros Hm Hv. induction m as [|[k' v'] m IH]; [repeat constructor; exact Hv|]. cbn [om_set]. apply Forall_cons in Hm as [Hv' Hm].
  destruct (decide (k = k')); constructor; auto. apply IH. exact Hm.
Qed.
Lemma om_all_remove {K V} `{EqDecision K} (P : V -> Prop) (m : omap_t K V) k : om_all P m -> om_all P (om_remove m k).
Proof. intros Hm. unfold om_remove. destruct (om_index m k); [|exact Hm]. apply Forall_swap_remove. exact Hm. Qed.
Lemma om_all_default (m : omap_t string N) k : om_all U m -> U (default 0 (om_get m k)).
Proof. intros Hm. destruct (om_get m k) eqn:E; [exact (om_all_get _ _ _ _ Hm E)|reflexivity]. Qed.
Lemma om_all_inner (m : omap_t string (omap_t string N)) k : om_all (om_all U) m -> om_all U (default [] (om_get m k)).
Proof. intros Hm. destruct (om_get m k) eqn:E; [exact (om_all_get _ _ _ _ Hm E)|constructor]. Qed.

Lemma okh_get hp h k x : okh hp -> uget hp h k = Ok (Some x) -> U x.
Proof.
  intros Hh H. unfold uget, cget in H. destruct (ce_idx _ !! k) as [i|]; [|discriminate]. apply bind_Ok in H as (o & H1 & H2).
  destruct o as [y|]; [|discriminate]. injection H2 as ->. unfold vec_get in H1. destruct (i <? h_len h)%nat; [|discriminate].
  destruct (ce_vals _ !! i) as [z|] eqn:E; [|discriminate]. injection H1 as ->. exact (Hh _ _ _ E).
Qed.
Lemma okh_cell hp p ce : okh hp -> (forall i x, ce_vals ce !! i = Some x -> U x) -> okh (<[p := ce]> hp).
Proof.
  intros Hh Hc q i x. unfold cell_at. destruct (decide (p = q)) as [->|Hne].
  - rewrite lookup_insert. cbn. apply Hc.
  - rewrite lookup_insert_ne by exact Hne. apply Hh.
Qed.
Lemma okh_insert hp h k x hp' h' : okh hp -> U x -> uinsert hp h k x = Ok (hp', h') -> okh hp'.
Proof.
  intros Hh Hx H. unfold uinsert in H. apply bind_Ok in H as ([ce len] & H & E). injection E as <- <-. apply okh_cell; [exact Hh|].
  unfold cinsert in H. destruct (ce_idx _ !! k) as [i|].
  - destruct (i <? h_len h)%nat; [|discriminate]. destruct (ce_vals _ !! i); [|discriminate]. injection H as <- <-. cbn [ce_vals].
    intros j y. rewrite lookup_insert_Some. intros [[_ <-]|[_ E]]; [exact Hx|exact (Hh _ _ _ E)].
  - injection H as <- <-. cbn [ce_vals]. intros j y. rewrite lookup_insert_Some. intros [[_ <-]|[_ E]]; [exact Hx|exact (Hh _ _ _ E)].
Qed.
Lemma okh_remove hp h k hp' h' : okh hp -> uremove hp h k = Ok (hp', h') -> okh hp'.
Proof.
  intros Hh H. unfold uremove in H. apply bind_Ok in H as ([ce len] & H & E). injection E as <- <-. apply okh_cell; [exact Hh|].
  unfold cremove in H. destruct (ce_idx _ !! k) as [i|]; [|injection H as <- <-; apply Hh].
  apply bind_Ok in H as (idx & _ & H). apply bind_Ok in H as (ks & _ & H). apply bind_Ok in H as (vs & Hv & H). injection H as <- <-. cbn [ce_vals].
  intros j y Hj. unfold vec_swap_remove in Hv. destruct (i <? h_len h)%nat; [|discriminate]. destruct (ce_vals _ !! (h_len h - 1)%nat) as [z|] eqn:Ez; [|discriminate].
  destruct (i =? h_len h - 1)%nat.
  - injection Hv as <-. apply lookup_delete_Some in Hj as [_ Hj]. exact (Hh _ _ _ Hj).
  - destruct (ce_vals _ !! i); [|discriminate]. injection Hv as <-. apply lookup_insert_Some in Hj as [[_ <-]|[_ Hj]]; [exact (Hh _ _ _ Ez)|].
    apply lookup_delete_Some in Hj as [_ Hj]. exact (Hh _ _ _ Hj).
Qed.

(** *** Arithmetic *)
Lemma U_sub a b : U a -> U (a - b).
Proof. unfold U. lia. Qed.
Lemma U_div a b : U a -> U (a / b).
Proof. intros H. destruct (N.eq_dec b 0) as [->|Hb]; [destruct a; reflexivity|]. eapply N.le_lt_trans; [|exact H]. apply N.div_le_upper_bound; [exact Hb|]. nia. Qed.
Lemma now_fits c : c_ts c < U64_SIZE -> now_ms c * 1000000 < U64_SIZE.
Proof. intros H. unfold now_ms. eapply N.le_lt_trans; [|exact H]. rewrite N.mul_comm. apply N.mul_div_le. lia. Qed.
Lemma calc_fits amount days vp : calculate_voting_power amount days = Ok vp -> U vp /\ days < U16_SIZE.
Proof. intros H. apply calc_Ok in H as (_ & _ & Hd & Hv). split; [exact Hv|]. unfold U16_SIZE. lia. Qed.

(** *** Voters *)
Lemma okv_new id : okv (new_voter id).
Proof. repeat constructor. Qed.
Lemma okv_get s id : OK s -> okv (get_voter s id).
Proof. intros H. unfold get_voter. destruct (om_get (voters s) id) eqn:E; [exact (om_all_get _ _ _ _ (ok_voters _ H) E)|apply okv_new]. Qed.
Lemma okv_some s id v : OK s -> om_get (voters s) id = Some v -> okv v.
Proof. intros H. apply om_all_get. exact (ok_voters _ H). Qed.
Lemma okp_at v i p : okv v -> v_lps v !! i = Some p -> okp p.
Proof. intros (_ & _ & H) E. eapply Forall_lookup_1; eauto. Qed.
Lemma okv_save s id v : OK s -> okv v -> OK (save_voter s id v).
Proof. intros [] Hv. constructor; cbn; auto. apply om_all_set; assumption. Qed.

Lemma dep_okp m l amount days vp l' :
  Forall okp l -> calculate_voting_power amount days = Ok vp -> dep_lps m l amount days vp l' -> Forall okp l'.
Proof.
  intros Hl Hc. pose proof (calc_fits _ _ _ Hc) as [Hv Hd]. apply calc_Ok in Hc as (_ & Ha & _).
  assert (U amount) as HU by (unfold U, E18 in *; lia).
  intros [(i & p & Hp & <- & _ & H1 & H2 & ->)|(_ & _ & ->)].
  - apply Forall_insert; [exact Hl|]. unfold okp. cbn. auto.
  - apply Forall_app. split; [exact Hl|]. repeat constructor; auto.
Qed.
Lemma clears_okv now v v' : clears now v v' -> okv v -> okv v'.
Proof.
  induction 1; intros Hv; [exact Hv|]. destruct (IHclears Hv) as (H3 & H4 & H5). unfold okv. cbn.
  split; [assumption|]. split; [assumption|]. apply Forall_swap_remove. exact H5.
Qed.
Lemma ok_upd s id v t : OK s -> okv v -> U t -> OK (upd s id v t).
Proof. intros [] Hv Ht. constructor; cbn; auto. apply om_all_set; assumption. Qed.
Lemma ok_upd_vote s vs hv hp : OK s -> om_all (om_all U) vs -> okh hv -> OK (s <| votes := vs |> <| hp_vv := hv |> <| hp_vp := hp |>).
Proof. intros [] ? ?. constructor; cbn; auto. Qed.

(** *** Deposits and positions *)
Lemma ok_deposit s amount days vid v s' v' :
  OK s -> okv v -> deposit_locking_position s amount days vid v = Ok (s', v') -> OK s' /\ okv v'.
Proof.
  intros Hs (H1 & H2 & H3) H. apply deposit_inv in H as (vp & l' & Hc & _ & Hd & Ha & Ht & Ev & ->).
  assert (okv v') as Hv'. { subst v'. split; [exact H1|]. split; [exact Ha|]. eapply dep_okp; eauto. }
  split; [|exact Hv']. apply ok_upd; assumption.
Qed.
Lemma ok_unlock c s i s' : c_ts c < U64_SIZE -> OK s -> unlock_position c s i = Ok s' -> OK s'.
Proof.
  intros Hc Hs H. apply unlock_inv in H as (v & p & Hv & Hp & Hle & ->). apply okv_some in Hv; [|exact Hs].
  destruct (okp_at _ _ _ Hv Hp) as (P1 & P2 & P3 & P4). destruct Hv as (V1 & V2 & V3).
  apply ok_upd; [exact Hs| |apply U_sub, (ok_total _ Hs)]. split; [exact V1|]. split; [apply U_sub, V2|].
  apply Forall_insert; [exact V3|]. repeat split; auto. apply now_fits, Hc.
Qed.
Lemma ok_unlock_partial c s i a s' : c_ts c < U64_SIZE -> U a -> OK s -> unlock_partial_position c s i a = Ok s' -> OK s'.
Proof.
  intros Hc Ha Hs H. apply unlock_partial_inv in H as [[H _]|H]; [eapply ok_unlock; eauto|].
  destruct H as (v & p & vp & Hv & Hp & _ & _ & _ & _ & Hcv & _ & _ & _ & ->). apply okv_some in Hv; [|exact Hs].
  apply calc_fits in Hcv as [Hvp _].
  destruct (okp_at _ _ _ Hv Hp) as (P1 & P2 & P3 & P4). destruct Hv as (V1 & V2 & V3).
  apply ok_upd; [exact Hs| |apply U_sub, (ok_total _ Hs)]. split; [exact V1|]. split; [apply U_sub, V2|].
  apply Forall_app. split; [apply Forall_insert; [exact V3|]|].
  - repeat split; cbn; auto using U_sub.
  - constructor; [|constructor]. repeat split; auto. apply now_fits, Hc.
Qed.
Lemma ok_extend c s i d s' : OK s -> locking_position_extend_days c s i d = Ok s' -> OK s'.
Proof.
  intros Hs H. apply extend_inv in H as (v & p & nvp & Hv & Hp & _ & _ & _ & Hcv & _ & Ht & Ha & ->). apply okv_some in Hv; [|exact Hs].
  apply calc_fits in Hcv as [Hvp Hd]. destruct (okp_at _ _ _ Hv Hp) as (P1 & P2 & P3 & P4). destruct Hv as (V1 & V2 & V3).
  apply ok_upd; [exact Hs| |exact Ht]. split; [exact V1|]. split; [exact Ha|].
  apply Forall_insert; [exact V3|]. repeat split; auto.
Qed.
Lemma ok_relock c s i d a s' : OK s -> relock_position c s i d a = Ok s' -> OK s'.
Proof.
  intros Hs H. apply relock_inv in H as (v & p & st & vp & l' & Hv & Hp & _ & _ & _ & _ & Hcv & _ & Hd & Ha & Ht & ->).
  apply okv_some in Hv; [|exact Hs]. destruct Hv as (V1 & V2 & V3).
  apply ok_upd; [exact Hs| |exact Ht]. split; [apply U_sub, V1|]. split; [exact Ha|].
  eapply dep_okp; [|exact Hcv|exact Hd]. apply Forall_swap_remove, V3.
Qed.
Lemma ok_relock_partial c s i m d a s' : OK s -> relock_partial_position c s i m d a = Ok s' -> OK s'.
Proof.
  intros Hs H. apply relock_partial_inv in H as (v & p & st & vp & l1 & l' & b1 & Hv & Hp & _ & _ & _ & _ & _ & Hor & Hcv & _ & Hd & Ha & Ht & ->).
  apply okv_some in Hv; [|exact Hs]. destruct (okp_at _ _ _ Hv Hp) as (P1 & P2 & P3 & P4). destruct Hv as (V1 & V2 & V3).
  assert (U b1 /\ Forall okp l1) as [HB HL].
  { destruct Hor as [(_ & _ & _ & -> & nvp & Hn & ->)|(_ & -> & Hb & ->)].
    - apply calc_fits in Hn as [Hn _]. split; [exact V1|]. apply Forall_insert; [exact V3|]. repeat split; cbn; auto using U_sub.
    - split; [exact Hb|]. apply Forall_swap_remove, V3. }
  apply ok_upd; [exact Hs| |exact Ht]. split; [apply U_sub, HB|]. split; [exact Ha|]. eapply dep_okp; eauto.
Qed.
Lemma ok_relock_balance c s d a s' : OK s -> relock_from_balance c s d a = Ok s' -> OK s'.
Proof.
  intros Hs H. apply relock_from_balance_inv in H as (v & vp & l' & Hv & _ & _ & Hcv & _ & Hd & Ha & Ht & ->).
  apply okv_some in Hv; [|exact Hs]. destruct Hv as (V1 & V2 & V3).
  apply ok_upd; [exact Hs| |exact Ht]. split; [apply U_sub, V1|]. split; [exact Ha|]. eapply dep_okp; eauto.
Qed.
Lemma ok_clear c s l s' : OK s -> clear_locking_position c s l = Ok s' -> OK s'.
Proof.
  intros Hs H. apply clear_positions_inv in H as (v & v1 & Hv & Hc & _ & ->). apply okv_save; [exact Hs|].
  eapply clears_okv; [exact Hc|]. eapply okv_some; eauto.
Qed.
Lemma ok_withdraw c s vid l amt s' e : OK s -> internal_withdraw c s vid l amt = Ok (s', e) -> OK s' /\ Forall sized_eff e.
Proof.
  intros Hs H. apply withdraw_inv in H as (v & v1 & t & Hv & Hc & _ & _ & _ & _ & Hle & -> & Hor).
  assert (okv v1) as (V1 & V2 & V3) by (eapply clears_okv; [exact Hc|]; eapply okv_some; eauto).
  split.
  - destruct Hor as [(_ & _ & ->)|(_ & ->)].
    + destruct Hs. constructor; cbn; auto. apply om_all_remove. assumption.
    + apply okv_save; [exact Hs|]. split; [apply U_sub, V1|]. auto.
  - repeat constructor. cbn. unfold fits128. eapply N.le_lt_trans; [exact Hle|exact V1].
Qed.

(** *** Claims *)
Lemma ok_remove_mp s a n s' : OK s -> remove_claimable_mpdao s a n = Ok s' -> OK s' /\ U n.
Proof.
  intros Hs H. apply remove_claimable_mpdao_inv in H as (Hn & _ & ->). pose proof (om_all_default _ a (ok_mp _ Hs)) as Hx.
  split; [|eapply N.le_lt_trans; eauto]. destruct Hs. constructor; cbn; auto using U_sub.
  destruct (_ =? 0); [apply om_all_remove|apply om_all_set; [|apply U_sub]]; assumption.
Qed.
Lemma ok_remove_st s a n s' : OK s -> remove_claimable_stnear s a n = Ok s' -> OK s' /\ U n.
Proof.
  intros Hs H. apply remove_claimable_stnear_inv in H as (Hn & _ & ->). pose proof (om_all_default _ a (ok_st _ Hs)) as Hx.
  split; [|eapply N.le_lt_trans; eauto]. destruct Hs. constructor; cbn; auto using U_sub.
  destruct (_ =? 0); [apply om_all_remove|apply om_all_set; [|apply U_sub]]; assumption.
Qed.
Lemma ok_add_mp s a n s' : OK s -> add_claimable_mpdao s a n = Ok s' -> OK s'.
Proof.
  intros Hs H. apply add_claimable_mpdao_inv in H as (_ & H1 & H2 & ->). destruct Hs. constructor; cbn; auto.
  apply om_all_set; assumption.
Qed.
Lemma ok_add_st s a n s' : OK s -> add_claimable_stnear s a n = Ok s' -> OK s'.
Proof.
  intros Hs H. apply add_claimable_stnear_inv in H as (_ & H1 & H2 & ->). destruct Hs. constructor; cbn; auto.
  apply om_all_set; assumption.
Qed.
Lemma ok_distribute c s t l s' : OK s -> distribute_for_claims c s t l = Ok s' -> OK s'.
Proof.
  intros Hs H. unfold distribute_for_claims in H.
  apply bind_Ok in H as ([s2 d] & H & H'). apply bind_Ok in H' as (? & _ & H'). injection H' as <-.
  case_bool_decide; [|case_bool_decide; [|discriminate]];
    apply bind_Ok in H as ([s1 d1] & HF & H); apply bind_Ok in H as (acc & Hacc & H); injection H as <- _; apply add128_Ok in Hacc as [-> Hacc];
    (assert (OK s1) as []; [|constructor; cbn; auto]);
    (eapply (foldM_inv (fun sd => OK sd.1)) in HF; [exact HF| |exact Hs]);
    intros [s3 d3] item [s4 d4] _ HI3 H4; cbn in *; rinv; eauto using ok_add_mp, ok_add_st.
Qed.
Lemma ok_ft c s x n m s' k : OK s -> ft_on_transfer c s x n m = Ok (s', k) -> OK s'.
Proof.
  intros Hs H. unfold ft_on_transfer in H.
  apply bind_Ok in H as (? & _ & H). apply bind_Ok in H as (fc & _ & H). destruct fc.
  - rinv. eapply ok_distribute; eauto.
  - apply bind_Ok in H as (? & _ & H). apply bind_Ok in H as (ip & _ & H).
    apply bind_Ok in H as ([vid days] & _ & H). apply bind_Ok in H as (? & _ & H).
    apply bind_Ok in H as ([s1 v1] & Hd & H). injection H as <- _.
    eapply ok_deposit in Hd; [apply Hd|exact Hs|apply okv_get, Hs].
Qed.
Lemma ok_claim_and_lock c s a d s' : OK s -> claim_and_lock c s a d = Ok s' -> OK s'.
Proof.
  intros Hs H. apply claim_and_lock_inv in H as (s1 & v & vp & l' & H1 & _ & Hv & Hcv & _ & Hd & Ha & Ht & ->).
  apply ok_remove_mp in H1 as [H1 _]; [|exact Hs]. apply okv_some in Hv; [|exact H1]. destruct Hv as (V1 & V2 & V3).
  apply ok_upd; [exact H1| |exact Ht]. split; [exact V1|]. split; [exact Ha|]. eapply dep_okp; eauto.
Qed.
Lemma ok_migration c s vid l d s' : OK s -> migration_create_lps c s vid l d = Ok s' -> OK s'.
Proof.
  intros Hs H. unfold migration_create_lps in H. apply bind_Ok in H as (? & _ & H). apply bind_Ok in H as (? & _ & H).
  apply bind_Ok in H as ([s1 v1] & HF & H).
  assert (OK s1) as H1.
  { eapply (foldM_inv (fun sv => OK sv.1 /\ okv sv.2)) in HF; [exact (proj1 HF)| |split; [exact Hs|apply okv_get, Hs]].
    intros [s3 v3] item [s4 v4] _ [HI HV] H4. cbn in *. eapply ok_deposit; eauto. }
  destruct d; [|injection H as <-; exact H1]. destruct (om_get _ _); injection H as <-; [exact H1|].
  destruct H1. constructor; cbn; auto.
Qed.

(** *** Votes *)
Lemma ok_increase s vp a o s' : OK s -> increase_total_votes s vp a o = Ok s' -> OK s'.
Proof.
  intros Hs H. unfold increase_total_votes in H. rinv. pose proof (om_all_inner _ a (ok_votes _ Hs)). destruct Hs. constructor; cbn; auto.
  apply om_all_set; [assumption|]. apply om_all_set; assumption.
Qed.
Lemma ok_decrease s vp a o s' : OK s -> decrease_total_votes s vp a o = Ok s' -> OK s'.
Proof.
  intros Hs H. unfold decrease_total_votes in H. rinv. pose proof (om_all_inner _ a (ok_votes _ Hs)) as Hm. destruct Hs. constructor; cbn; auto.
  match goal with H : om_get _ o = Some ?y |- _ => assert (U y) as Hx by exact (om_all_get _ _ _ _ Hm H) end.
  match goal with |- om_all _ (match ?t with _ => _ end) => assert (om_all U t) as Hm' end.
  { destruct (_ =? 0); [apply om_all_remove|apply om_all_set; [|apply U_sub]]; assumption. }
  destruct (if _ =? 0 then _ else _); [apply om_all_remove|apply om_all_set]; assumption.
Qed.
Lemma ok_heaps s hv hp : OK s -> okh hv -> OK (s <| hp_vv := hv |> <| hp_vp := hp |>).
Proof. intros [] ?. constructor; cbn; auto. Qed.
Lemma ok_create_vp s vid v vp a o s' v' :
  OK s -> okv v -> internal_create_voting_position s vid v vp a o = Ok (s', v') -> OK s' /\ okv v'.
Proof.
  intros Hs (V1 & V2 & V3) H. unfold internal_create_voting_position in H.
  apply bind_Ok in H as (? & _ & H). apply bind_Ok in H as (? & _ & H).
  apply bind_Ok in H as (h & _ & H). apply bind_Ok in H as (oo & _ & H).
  apply bind_Ok in H as (av & Hav & H). apply bind_Ok in H as (vts & Hvts & H).
  apply bind_Ok in H as ([hv h'] & Hins & H). apply bind_Ok in H as ([hp vph] & _ & H).
  apply bind_Ok in H as (s1 & Hinc & H). injection H as <- <-.
  apply sub128_Ok in Hav as [-> _]. apply add128_Ok in Hvts as [-> Hx].
  split.
  - eapply ok_increase; [|exact Hinc]. apply ok_heaps; [exact Hs|]. eapply okh_insert; [apply (ok_vv _ Hs)|exact Hx|exact Hins].
  - split; [exact V1|]. split; [apply U_sub, V2|exact V3].
Qed.
Lemma ok_remove_vp s vid v a o s' v' :
  OK s -> okv v -> internal_remove_voting_position s vid v a o = Ok (s', v') -> OK s' /\ okv v'.
Proof.
  intros Hs (V1 & V2 & V3) H. unfold internal_remove_voting_position in H.
  apply bind_Ok in H as (h & _ & H). apply bind_Ok in H as (oo & _ & H).
  apply bind_Ok in H as (x & _ & H). apply bind_Ok in H as (av & Hav & H).
  apply bind_Ok in H as ([hv h'] & Hrm & H). apply bind_Ok in H as ([hp vph] & _ & H).
  apply bind_Ok in H as (s1 & Hdec & H). injection H as <- <-. apply add128_Ok in Hav as [-> Hav].
  split.
  - eapply ok_decrease; [|exact Hdec]. apply ok_heaps; [exact Hs|]. eapply okh_remove; [apply (ok_vv _ Hs)|exact Hrm].
  - split; [exact V1|]. split; [exact Hav|exact V3].
Qed.
Lemma ok_vote s vid vp a o s' : OK s -> internal_vote s vid vp a o = Ok s' -> OK s'.
Proof.
  intros Hs H. unfold internal_vote in H. apply bind_Ok in H as (v & Hv & H). apply bind_Ok in H as ([s1 v1] & H1 & H). injection H as <-.
  apply expect_Ok in Hv. eapply ok_create_vp in H1 as [H1 H2]; [|exact Hs|eapply okv_some; eauto]. apply okv_save; assumption.
Qed.
Lemma ok_unvote c s vid a o s' : OK s -> internal_unvote c s vid a o = Ok s' -> OK s'.
Proof.
  intros Hs H. unfold internal_unvote in H. apply bind_Ok in H as (? & _ & H). apply bind_Ok in H as (v & Hv & H).
  apply bind_Ok in H as ([s1 v1] & H1 & H). injection H as <-.
  apply expect_Ok in Hv. eapply ok_remove_vp in H1 as [H1 H2]; [|exact Hs|eapply okv_some; eauto]. apply okv_save; assumption.
Qed.
Lemma ok_rebalance c s vp a o s' : OK s -> rebalance c s vp a o = Ok s' -> OK s'.
Proof.
  intros Hs H. unfold rebalance in H. apply bind_Ok in H as (? & _ & H). apply bind_Ok in H as (v & Hv & H).
  apply expect_Ok in Hv. apply okv_some in Hv; [|exact Hs]. destruct Hv as (V1 & V2 & V3).
  apply bind_Ok in H as (h & _ & H). apply bind_Ok in H as (oo & Hoo & H). apply bind_Ok in H as (vts & Hx & H).
  apply expect_Ok in Hx. subst oo. apply okh_get in Hoo; [|apply (ok_vv _ Hs)].
  apply bind_Ok in H as (? & _ & H). destruct (vp =? 0); [eapply ok_unvote; eauto|].
  apply bind_Ok in H as ([[s1 av] vts'] & H1 & H). apply bind_Ok in H as ([hv h'] & Hins & H). apply bind_Ok in H as ([hp vph] & _ & H). injection H as <-.
  assert (OK s1 /\ U av /\ U vts') as (HS & HA & HV).
  { destruct (vts <? vp); rinv.
    - split; [eapply ok_increase; eauto|]. split; [apply U_sub, V2|assumption].
    - split; [eapply ok_decrease; eauto|]. split; [assumption|apply U_sub, Hoo]. }
  apply okv_save; [|split; [exact V1|split; [exact HA|exact V3]]].
  apply ok_heaps; [exact HS|]. eapply okh_insert; [apply (ok_vv _ HS)|exact HV|exact Hins].
Qed.
Lemma ok_mirror_loop fuel : forall s vid v u new s' v' u',
  OK s -> okv v -> mirror_loop fuel s vid v u new = Ok (s', v', u') -> OK s' /\ okv v'.
Proof.
  induction fuel as [|fuel IH]; intros s vid v u new s' v' u' Hs Hv H; simpl in H; destruct (new <? u) eqn:Elt; try discriminate.
  - injection H as <- <- <-. auto.
  - apply bind_Ok in H as (ok & _ & H). apply bind_Ok in H as (addr & _ & H).
    apply bind_Ok in H as (oh & _ & H). apply bind_Ok in H as (h & _ & H).
    apply bind_Ok in H as (oo & _ & H). apply bind_Ok in H as (obj & _ & H).
    apply bind_Ok in H as (ov & _ & H). apply bind_Ok in H as (x & _ & H).
    apply bind_Ok in H as ([s1 v1] & Hrm & H). apply bind_Ok in H as (u1 & _ & H).
    eapply ok_remove_vp in Hrm as [H1 H2]; [|exact Hs|exact Hv]. eapply IH; eauto.
  - injection H as <- <- <-. auto.
Qed.
Lemma ok_mirror c s ext l s' : OK s -> operator_mirror_lps c s ext l = Ok s' -> OK s'.
Proof.
  intros Hs H. unfold operator_mirror_lps in H. cbn zeta in H.
  apply bind_Ok in H as (? & _ & H). apply bind_Ok in H as (? & _ & H).
  apply bind_Ok in H as (u & _ & H). apply bind_Ok in H as (prev & _ & H).
  apply bind_Ok in H as (vps & _ & H). apply bind_Ok in H as (new & _ & H).
  apply bind_Ok in H as ([[s1 v1] u1] & Hloop & H).
  apply bind_Ok in H as ([s2 v3] & Hcr & H). apply bind_Ok in H as (av & Hav & H).
  apply bind_Ok in H as (t & Ht & H). injection H as <-. apply sub128_Ok in Hav as [-> _]. apply sub128_Ok in Ht as [-> _].
  eapply ok_mirror_loop in Hloop as [H1 H2]; [|exact Hs|apply okv_get, Hs].
  eapply (foldM_inv (fun sv => OK sv.1 /\ okv sv.2)) in Hcr.
  - destruct Hcr as [HS (V1 & V2 & V3)]. cbn in *. eapply (ok_upd s2); [exact HS|split; [exact V1|split; [apply U_sub, V2|exact V3]]|apply U_sub, (ok_total _ HS)].
  - intros [s3 w3] lp [s4 w4] _ [HS (V1 & V2 & V3)] H4. cbn [fst snd] in *. apply create_lp_inv in H4 as (vp & Hc & _ & _ & Ha & Ht & -> & ->).
    pose proof (calc_fits _ _ _ Hc) as [Hv Hd]. apply calc_Ok in Hc as (_ & Ha' & _).
    assert (U lp.2) as HU by (unfold U, E18 in *; lia).
    split; [destruct HS; constructor; cbn; auto|]. split; [exact V1|]. split; [exact Ha|]. apply Forall_app. split; [exact V3|]. repeat constructor; auto.
  - cbn. split; [exact H1|]. destruct H2 as (V1 & V2 & V3). repeat constructor. exact V1.
Qed.

(** *** Every call *)
Lemma ok_exec x s s' e : sized_call x -> OK s -> exec x.1 s x.2 = Ok (s', e) -> OK s' /\ Forall sized_eff e.
Proof.
  destruct x as [c o]. intros (Hc & _ & Ho) Hs H. cbn [fst snd] in *.
  destruct o; cbn [exec sized_op] in H, Ho;
    try (apply noeff_Ok in H as [H ->]; split; [|constructor]);
    try (unfold set_stnear_contract, set_operator_id, set_owner_id, update_registration_cost,
      update_airdrop_user_data, operator_multi_set_airdrop_data, set_lock_in_vote_filters,
      update_min_unbond_period, update_max_unbond_period, set_prev_gov_contract,
      pre_delegate_evm_address, operator_remove_pre_delegate in H; rinv;
      solve [destruct Hs; constructor; cbn; first [assumption|apply Ho]]).
  - eapply ok_claim_and_lock; eauto.
  - unfold claim_stnear in H. rinv.
    match goal with H : remove_claimable_stnear _ _ _ = Ok _ |- _ => apply ok_remove_st in H as [? ?]; [|exact Hs] end.
    split; [assumption|]. repeat constructor. exact Ho.
  - rinv. eapply ok_unlock; eauto.
  - rinv. eapply ok_unlock_partial; eauto.
  - eapply ok_extend; eauto.
  - eapply ok_relock; eauto.
  - eapply ok_relock_partial; eauto.
  - eapply ok_relock_balance; eauto.
  - eapply ok_clear; eauto.
  - unfold vote in H. rinv. eapply ok_vote; eauto.
  - eapply ok_rebalance; eauto.
  - unfold unvote in H. rinv. eapply ok_unvote; eauto.
  - eapply ok_migration; eauto.
  - eapply ok_mirror; eauto.
  - unfold operator_confirm_delegated in H. apply bind_Ok in H as (? & _ & H). apply bind_Ok in H as (? & _ & H).
    destruct (evm_pre s !! evm) as [[a g]|]; [|rinv; exact Hs]. cbn zeta in H.
    destruct (evm_sigs _ !! evm) as [[old g2]|].
    + destruct (bool_decide (old = a)); rinv; destruct Hs; constructor; cbn; assumption.
    + rinv. destruct Hs; constructor; cbn; assumption.
  - unfold delegated_claim_stnear in H. rinv.
    match goal with H : remove_claimable_stnear _ _ _ = Ok _ |- _ => apply ok_remove_st in H as [? ?]; [|exact Hs] end.
    split; [assumption|]. repeat constructor. exact Ho.
  - unfold vote_delegated, verify_delegate in H. rinv. eapply ok_vote; eauto.
  - unfold unvote_delegated, verify_delegate in H. rinv. eapply ok_unvote; eauto.
  - unfold remove_delegated_evm_address in H. apply bind_Ok in H as (? & _ & H).
    destruct (evm_sigs s !! evm) as [[a g]|]; [|discriminate].
    destruct (bool_decide (a = c_pred c)); [|discriminate]. rinv. destruct Hs; constructor; cbn; assumption.
  - unfold withdraw in H. eapply ok_withdraw; eauto.
  - unfold withdraw_all in H. apply bind_Ok in H as (v & _ & H). eapply ok_withdraw; eauto.
  - unfold after_transfer_mpdao_callback in H. rinv. destruct ok; rinv; [exact Hs|].
    pose proof (okv_get s vid Hs) as (V1 & V2 & V3). apply okv_save; [exact Hs|]. split; [assumption|]. auto.
  - unfold after_transfer_stnear_callback in H. rinv. destruct ok; rinv; [exact Hs|]. eapply ok_add_st; eauto.
  - rinv. split; [|constructor]. eapply ok_ft; eauto.
Qed.
Lemma okh_empty : okh ∅.
Proof. intros p i x. unfold cell_at. rewrite lookup_empty. cbn. rewrite lookup_empty. discriminate. Qed.
Lemma ok_init a s : mv_new a = Ok s -> OK s.
Proof.
  intros H. unfold mv_new in H. rinv. nb.
  constructor; cbn; try assumption; try reflexivity; try apply okh_empty; try (apply List.Forall_nil).
Qed.
Lemma ok_run a s0 tr : mv_new a = Ok s0 -> Forall sized_call tr -> OK (run s0 tr).
Proof.
  intros H0 HT. apply ok_init in H0. revert s0 H0. induction tr as [|x tr IH]; intros s0 H0; [exact H0|].
  apply Forall_cons in HT as [Hx HT]. apply (IH HT). unfold step.
  destruct (exec x.1 s0 x.2) as [[s1 e]|] eqn:E; [|exact H0]. eapply ok_exec in E; [apply E|exact Hx|exact H0].
Qed.

(** *** What is shown *)
Lemma ok_used s w : U (used_or0 s w).
Proof.
  unfold used_or0, get_used_voting_power, sum_used_votes. destruct (uvals _ _) as [hs|]; [|reflexivity]. cbn [mbind res_bind].
  match goal with |- U (match ?t with _ => _ end) => destruct t as [u|] eqn:E end; [|reflexivity].
  eapply (foldM_inv U) in E; [exact E| |reflexivity]. intros x h y _ _ H. rinv. assumption.
Qed.
Lemma ok_sees s : OK s -> sized (observe s).
Proof.
  intros H. unfold sized, observe. cbn.
  change fits128 with U. change fits8 with (fun n => n < U8_SIZE). change fits16 with (fun n => n < U16_SIZE). change fits64 with (fun n => n < U64_SIZE). cbn beta.
  split; [apply (ok_min _ H)|]. split; [apply (ok_max _ H)|]. split; [apply (ok_dep _ H)|]. split; [apply (ok_lps _ H)|].
  split; [apply (ok_vps _ H)|]. split; [apply (ok_reg _ H)|]. split; [split; [apply (ok_end _ H)|apply (ok_id _ H)]|].
  split; [|split; [apply (ok_total _ H)|]].
  { intros w. pose proof (okv_get s w H) as (V1 & V2 & V3). unfold sized_acct, acct_of. cbn.
    split; [exact V1|]. split; [|split; [exact V2|split; [apply ok_used|]]].
    - rewrite pos_of_lp. apply Forall_map. eapply Forall_impl; [exact V3|]. intros p (P1 & P2 & P3 & P4). unfold sized_pos, lpp. cbn.
      split; [exact P1|]. split; [exact P2|]. split; [exact P3|]. unfold ends. cbn. destruct (lp_unl p) as [t|]; [|exact I].
      change U64_SIZE with 18446744073709551616 in *. change U16_SIZE with 65536 in *. unfold fits64. change (2 ^ 64) with 18446744073709551616. lia.
    - intros x y. unfold votes_or0, get_votes_for_object. cbn zeta. destruct (uget (hp_vp s) _ x) as [[h|]|]; [|reflexivity|reflexivity].
      cbn [mbind res_bind]. destruct (uget (hp_vv s) h y) as [[n|]|] eqn:E; [|reflexivity|reflexivity]. exact (okh_get _ _ _ _ (ok_vv _ H) E). }
  split. { intros x y. unfold get_total_votes. destruct (om_get (votes s) x) as [m|] eqn:E; [|reflexivity].
           apply om_all_default. exact (om_all_get _ _ _ _ (ok_votes _ H) E). }
  split. { intros w. apply om_all_default, (ok_mp _ H). }
  split; [apply (ok_ump _ H)|]. split; [apply (ok_amp _ H)|].
  split. { intros w. apply om_all_default, (ok_st _ H). }
  split; [apply (ok_ust _ H)|apply (ok_ast _ H)].
Qed.

Lemma c88_stored a s0 tr : mv_new a = Ok s0 -> Forall sized_call tr -> sized (observe (run s0 tr)).
Proof. intros H0 HT. apply ok_sees. eapply ok_run; eauto. Qed.
Lemma c88_sent a s0 tr x s' e :
  mv_new a = Ok s0 -> Forall sized_call tr -> sized_call x -> exec x.1 (run s0 tr) x.2 = Ok (s', e) -> Forall sized_eff e.
Proof. intros H0 HT Hx H. eapply ok_exec in H; [apply H|exact Hx|]. eapply ok_run; eauto. Qed.
