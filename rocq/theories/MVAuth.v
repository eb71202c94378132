(** MVAuth.v -- who can change the configuration (C20). *)

From Verif Require Export MVCases.

(** all configuration of the contract *)
Definition cfg (s : state) :=
  (self_id s, owner_id s, operator_id s, stnear_addr s, min_unbond s, max_unbond s, min_deposit s,
   max_lps s, max_vps s, mpdao_addr s, reg_cost s, prev_gov s, (lock_end s, lock_addr s, lock_id s)).

Definition is_cfg_op (o : op) : bool :=
  match o with
  | SetStnear _ | SetOperator _ | SetOwner _ | UpdateRegCost _ | UpdateMinUnbond _
  | UpdateMaxUnbond _ | SetPrevGov _ | SetLockIn _ _ _ => true
  | _ => false
  end.

Lemma distribute_cfg c s total l s' :
  distribute_for_claims c s total l = Ok s' -> cfg s' = cfg s.
Proof.
  intros H. unfold distribute_for_claims in H.
  apply bind_Ok in H as ([s2 d] & H & H'). apply bind_Ok in H' as (? & Hd & H'). injection H' as <-.
  case_bool_decide; [|case_bool_decide; [|discriminate]];
    apply bind_Ok in H as ([s1 d1] & HF & H); apply bind_Ok in H as (acc & _ & H); injection H as <- _.
  - eapply (foldM_inv (fun sd => cfg sd.1 = cfg s)) in HF; [exact HF| |reflexivity].
    intros [s3 d3] item [s4 d4] _ I Hs. cbn in *. rinv.
    match goal with H : add_claimable_mpdao _ _ _ = Ok _ |- _ => apply add_claimable_mpdao_inv in H as (_ & _ & _ & ->) end.
    exact I.
  - eapply (foldM_inv (fun sd => cfg sd.1 = cfg s)) in HF; [exact HF| |reflexivity].
    intros [s3 d3] item [s4 d4] _ I Hs. cbn in *. rinv.
    match goal with H : add_claimable_stnear _ _ _ = Ok _ |- _ => apply add_claimable_stnear_inv in H as (_ & _ & _ & ->) end.
    exact I.
Qed.

Lemma exec_cfg c s o s' e :
  exec c s o = Ok (s', e) -> is_cfg_op o = false -> cfg s' = cfg s.
Proof.
  intros H Hf.
  destruct o; try discriminate Hf; clear Hf; cbn [exec] in H;
    try (apply noeff_Ok in H as [H ->]).
  - unfold update_airdrop_user_data in H. rinv. reflexivity.
  - unfold operator_multi_set_airdrop_data in H. rinv. reflexivity.
  - apply claim_and_lock_inv in H as (s1 & v & vp & l' & Hr & _ & _ & _ & _ & _ & _ & _ & ->).
    apply remove_claimable_mpdao_inv in Hr as (_ & _ & ->). reflexivity.
  - unfold claim_stnear in H. rinv.
    match goal with H : remove_claimable_stnear _ _ _ = Ok _ |- _ => apply remove_claimable_stnear_inv in H as (_ & _ & ->) end. reflexivity.
  - rinv. apply unlock_inv in H as (v & p & _ & _ & _ & ->). reflexivity.
  - rinv. apply unlock_partial_inv in H as [(H & _)|(v & p & vp & _ & _ & _ & _ & _ & _ & _ & _ & _ & _ & ->)]; [|reflexivity].
    apply unlock_inv in H as (v & p & _ & _ & _ & ->). reflexivity.
  - apply extend_inv in H as (v & p & nvp & _ & _ & _ & _ & _ & _ & _ & _ & _ & ->). reflexivity.
  - apply relock_inv in H as (v & p & st & vp & l' & _ & _ & _ & _ & _ & _ & _ & _ & _ & _ & _ & ->). reflexivity.
  - apply relock_partial_inv in H as (v & p & st & vp & l1 & l' & b1 & _ & _ & _ & _ & _ & _ & _ & _ & _ & _ & _ & _ & _ & ->). reflexivity.
  - apply relock_from_balance_inv in H as (v & vp & l' & _ & _ & _ & _ & _ & _ & _ & _ & ->). reflexivity.
  - apply clear_positions_inv in H as (v & v1 & _ & _ & _ & ->). reflexivity.
  - unfold vote in H. rinv. apply vote_shape in H as (v & v' & _ & _ & vs & hv & hp & ->). reflexivity.
  - apply rebalance_shape in H as (v & v' & _ & _ & vs & hv & hp & ->). reflexivity.
  - unfold unvote in H. rinv. apply unvote_shape in H as (_ & v & v' & _ & _ & vs & hv & hp & ->). reflexivity.
  - apply migration_shape in H as (_ & v' & _ & _ & t & ud & -> & _). reflexivity.
  - apply mirror_shape in H as (vps & v' & _ & _ & _ & _ & _ & _ & _ & _ & vs & hv & hp & t & ->). reflexivity.
  - unfold pre_delegate_evm_address in H. rinv. reflexivity.
  - unfold operator_remove_pre_delegate in H. rinv. reflexivity.
  - unfold operator_confirm_delegated in H. apply bind_Ok in H as (? & _ & H). apply bind_Ok in H as (? & _ & H).
    destruct (evm_pre s !! evm) as [[a g]|]; [|injection H as <-; reflexivity].
    cbn zeta in H. destruct (evm_sigs _ !! evm) as [[old g2]|]; [|injection H as <-; reflexivity].
    destruct (bool_decide (old = a)); [injection H as <-; reflexivity|].
    apply bind_Ok in H as (pl & _ & H). injection H as <-. reflexivity.
  - unfold delegated_claim_stnear in H. rinv.
    match goal with H : remove_claimable_stnear _ _ _ = Ok _ |- _ => apply remove_claimable_stnear_inv in H as (_ & _ & ->) end. reflexivity.
  - unfold vote_delegated in H. rinv. apply vote_shape in H as (v & v' & _ & _ & vs & hv & hp & ->). reflexivity.
  - unfold unvote_delegated in H. rinv. apply unvote_shape in H as (_ & v & v' & _ & _ & vs & hv & hp & ->). reflexivity.
  - unfold remove_delegated_evm_address in H. apply bind_Ok in H as (? & _ & H).
    destruct (evm_sigs s !! evm) as [[a g]|]; [|discriminate].
    destruct (bool_decide (a = c_pred c)); [|discriminate]. rinv. reflexivity.
  - unfold withdraw in H. apply withdraw_inv in H as (v & v1 & t & _ & _ & _ & _ & _ & _ & _ & _ & [(_ & _ & ->)|(_ & ->)]); reflexivity.
  - unfold withdraw_all in H. apply bind_Ok in H as (v0 & _ & H).
    apply withdraw_inv in H as (v & v1 & t & _ & _ & _ & _ & _ & _ & _ & _ & [(_ & _ & ->)|(_ & ->)]); reflexivity.
  - unfold after_transfer_mpdao_callback in H. rinv. destruct ok; rinv; reflexivity.
  - unfold after_transfer_stnear_callback in H. rinv. destruct ok; rinv; [reflexivity|].
    apply add_claimable_stnear_inv in H as (_ & _ & _ & ->). reflexivity.
  - apply bind_Ok in H as ([s1 n] & H & H'). injection H' as <- <-.
    apply ft_shape in H as (_ & _ & [(l & _ & _ & _ & H)|(vid & days & v' & _ & _ & _ & _ & _ & t & ->)]); [|reflexivity].
    eapply distribute_cfg; exact H.
Qed.

(** constants of the deployment *)
Definition consts (s : state) := (self_id s, min_deposit s, max_lps s, max_vps s, mpdao_addr s).

Lemma exec_consts c s o s' e : exec c s o = Ok (s', e) -> consts s' = consts s.
Proof.
  intros H. destruct (is_cfg_op o) eqn:Ef.
  - destruct o; try discriminate Ef; cbn [exec] in H; apply noeff_Ok in H as [H _];
    unfold set_stnear_contract, set_operator_id, set_owner_id, update_registration_cost,
      set_lock_in_vote_filters,
      update_min_unbond_period, update_max_unbond_period, set_prev_gov_contract in H; rinv; reflexivity.
  - apply exec_cfg in H; [|exact Ef]. unfold cfg in H. unfold consts. congruence.
Qed.

Lemma run_consts s tr : consts (run s tr) = consts s.
Proof.
  apply (run_inv (fun z => consts z = consts s)); [reflexivity|].
  intros x t t' e _ HI H. rewrite (exec_consts _ _ _ _ _ H). exact HI.
Qed.

(** C20, one call *)
Lemma config_auth c s o s' e :
  exec c s o = Ok (s', e) ->
  let i := get_contract_info s in let i' := get_contract_info s' in
  (ci_owner i', ci_operator i', ci_stnear i', ci_min_unbond i', ci_max_unbond i', ci_reg_cost i', ci_prev_gov i')
    <> (ci_owner i, ci_operator i, ci_stnear i, ci_min_unbond i, ci_max_unbond i, ci_reg_cost i, ci_prev_gov i) ->
  c_pred c = ci_owner i.
Proof.
  intros H i i'. subst i i'. cbn. intros Hne. destruct (is_cfg_op o) eqn:Ef.
  - destruct o; try discriminate Ef; cbn [exec] in H; apply noeff_Ok in H as [H _];
    unfold set_stnear_contract, set_operator_id, set_owner_id, update_registration_cost,
      set_lock_in_vote_filters,
      update_min_unbond_period, update_max_unbond_period, set_prev_gov_contract, assert_only_owner in H; rinv; subst;
      solve [congruence | exfalso; apply Hne; reflexivity].
  - apply exec_cfg in H; [|exact Ef]. unfold cfg in H. congruence.
Qed.

Lemma lock_filters_auth c s o s' e :
  exec c s o = Ok (s', e) -> get_lock_in_vote_filters s' <> get_lock_in_vote_filters s ->
  c_pred c = ci_operator (get_contract_info s).
Proof.
  intros H. unfold get_lock_in_vote_filters. cbn. intros Hne. destruct (is_cfg_op o) eqn:Ef.
  - destruct o; try discriminate Ef; cbn [exec] in H; apply noeff_Ok in H as [H _];
    unfold set_stnear_contract, set_operator_id, set_owner_id, update_registration_cost,
      set_lock_in_vote_filters,
      update_min_unbond_period, update_max_unbond_period, set_prev_gov_contract, assert_operator in H; rinv; subst;
      solve [congruence | exfalso; apply Hne; reflexivity].
  - apply exec_cfg in H; [|exact Ef]. unfold cfg in H. congruence.
Qed.

Lemma constants_fixed s tr :
  let i := get_contract_info s in let i' := get_contract_info (run s tr) in
  (ci_mpdao i', ci_min_deposit i', ci_max_lps i', ci_max_vps i')
  = (ci_mpdao i, ci_min_deposit i, ci_max_lps i, ci_max_vps i).
Proof. cbn. pose proof (run_consts s tr) as H. unfold consts in H. congruence. Qed.

(** the owner's and operator's setters do exactly what they say *)
Lemma setters_exact c s o s' e :
  exec c s o = Ok (s', e) ->
  match o with
  | SetOwner a => s' = s <| owner_id := a |>
  | SetOperator a => s' = s <| operator_id := a |>
  | SetStnear a => s' = s <| stnear_addr := a |>
  | UpdateRegCost n => s' = s <| reg_cost := n |>
  | UpdateMinUnbond n => s' = s <| min_unbond := n |>
  | UpdateMaxUnbond n => s' = s <| max_unbond := n |>
  | SetPrevGov a => s' = s <| prev_gov := a |>
  | SetLockIn t i a =>
      get_lock_in_vote_filters s' = (t, a, i) /\
      s' = s <| lock_end := t |> <| lock_addr := a |> <| lock_id := i |>
  | _ => True
  end.
Proof.
  intros H. destruct o; try exact I; cbn [exec] in H; apply noeff_Ok in H as [H _];
    unfold set_stnear_contract, set_operator_id, set_owner_id, update_registration_cost,
      set_lock_in_vote_filters, update_min_unbond_period, update_max_unbond_period,
      set_prev_gov_contract in H; rinv; first [reflexivity | split; reflexivity].
Qed.

(** and the owner and the operator can always use them *)
Lemma setters_available c s o :
  match o with
  | SetOwner _ | SetOperator _ | SetStnear _ | UpdateMinUnbond _ | UpdateMaxUnbond _ | SetPrevGov _ =>
      c_pred c = owner_id s /\ c_deposit c = 1
  | UpdateRegCost _ => c_pred c = owner_id s /\ c_deposit c = 0
  | SetLockIn _ _ _ => c_pred c = operator_id s /\ c_deposit c = 0
  | _ => False
  end -> exists s', exec c s o = Ok (s', []).
Proof.
  destruct o; try contradiction; intros [Hp Hd]; cbn [exec];
    unfold set_stnear_contract, set_operator_id, set_owner_id, update_registration_cost,
      set_lock_in_vote_filters, update_min_unbond_period, update_max_unbond_period,
      set_prev_gov_contract, assert_one_yocto, non_payable, assert_only_owner, assert_operator;
    rewrite Hp, Hd; cbn [N.eqb]; rewrite ?bool_decide_eq_true_2 by auto; cbn;
    eexists; reflexivity.
Qed.
