(** MVFrame.v -- which calls touch rewards, delegations and user data. *)

From Verif Require Export MVAuth MVSpecMoney.

Definition claimf (s : state) :=
  (claim_mp s, accum_mp s, uncl_mp s, claim_st s, accum_st s, uncl_st s).
Definition delegf (s : state) := (evm_delegates s, evm_pre s, evm_sigs s).

Definition is_claim_op (o : op) : bool :=
  match o with
  | ClaimAndLock _ _ | ClaimStnear _ | DelegatedClaim _ _ | AfterSt _ _ false | FtOnTransfer _ _ _ => true
  | _ => false
  end.
Definition is_deleg_op (o : op) : bool :=
  match o with PreDelegate _ _ | OpRemovePre _ | OpConfirm _ | RemoveDelegated _ => true | _ => false end.
Definition is_data_op (o : op) : bool :=
  match o with UpdateAirdrop _ | OpMultiSetAirdrop _ | MigrationCreateLps _ _ _ => true | _ => false end.
Definition no_st (e : list eff) : Prop := forall t a b n, ~ In (PaySt t a b n) e.

Lemma distribute_frame c s total l s' :
  distribute_for_claims c s total l = Ok s' -> delegf s' = delegf s /\ user_data s' = user_data s.
Proof.
  intros H. unfold distribute_for_claims in H.
  apply bind_Ok in H as ([s2 d] & H & H'). apply bind_Ok in H' as (? & Hd & H'). injection H' as <-.
  case_bool_decide; [|case_bool_decide; [|discriminate]];
    apply bind_Ok in H as ([s1 d1] & HF & H); apply bind_Ok in H as (acc & _ & H); injection H as <- _.
  - eapply (foldM_inv (fun sd => delegf sd.1 = delegf s /\ user_data sd.1 = user_data s)) in HF; [exact HF| |split; reflexivity].
    intros [s3 d3] item [s4 d4] _ I Hs. cbn in *. rinv.
    match goal with H : add_claimable_mpdao _ _ _ = Ok _ |- _ => apply add_claimable_mpdao_inv in H as (_ & _ & _ & ->) end.
    exact I.
  - eapply (foldM_inv (fun sd => delegf sd.1 = delegf s /\ user_data sd.1 = user_data s)) in HF; [exact HF| |split; reflexivity].
    intros [s3 d3] item [s4 d4] _ I Hs. cbn in *. rinv.
    match goal with H : add_claimable_stnear _ _ _ = Ok _ |- _ => apply add_claimable_stnear_inv in H as (_ & _ & _ & ->) end.
    exact I.
Qed.

Definition frame (o : op) (s s' : state) (e : list eff) : Prop :=
  (is_claim_op o = false -> claimf s' = claimf s /\ no_st e) /\
  (is_deleg_op o = false -> delegf s' = delegf s) /\
  (is_data_op o = false -> user_data s' = user_data s).

Lemma exec_frame c s o s' e : exec c s o = Ok (s', e) -> frame o s s' e.
Proof.
  intros H. unfold frame.
  assert (N0 : no_st []) by (intros t a b n []).
  assert (N1 : forall v a, no_st [PayMp v a]) by (intros v x t a b n [|[]]; discriminate).
  Local Ltac fr := split; [|split]; intros HF; try discriminate HF; try (split; [reflexivity|auto]); reflexivity.
  destruct o; cbn [exec] in H;
    try (apply noeff_Ok in H as [H ->]);
    try (unfold set_stnear_contract, set_operator_id, set_owner_id, update_registration_cost,
      update_airdrop_user_data, operator_multi_set_airdrop_data, set_lock_in_vote_filters,
      update_min_unbond_period, update_max_unbond_period, set_prev_gov_contract,
      pre_delegate_evm_address, operator_remove_pre_delegate in H; rinv; fr).
  - apply claim_and_lock_inv in H as (s1 & v & vp & l' & Hr & _ & _ & _ & _ & _ & _ & _ & ->).
    apply remove_claimable_mpdao_inv in Hr as (_ & _ & ->). fr.
  - unfold claim_stnear in H. rinv.
    match goal with H : remove_claimable_stnear _ _ _ = Ok _ |- _ => apply remove_claimable_stnear_inv in H as (_ & _ & ->) end. fr.
  - rinv. apply unlock_inv in H as (v & p & _ & _ & _ & ->). fr.
  - rinv. apply unlock_partial_inv in H as [(H & _)|(v & p & vp & _ & _ & _ & _ & _ & _ & _ & _ & _ & _ & ->)]; [|fr].
    apply unlock_inv in H as (v & p & _ & _ & _ & ->). fr.
  - apply extend_inv in H as (v & p & nvp & _ & _ & _ & _ & _ & _ & _ & _ & _ & ->). fr.
  - apply relock_inv in H as (v & p & st & vp & l' & _ & _ & _ & _ & _ & _ & _ & _ & _ & _ & _ & ->). fr.
  - apply relock_partial_inv in H as (v & p & st & vp & l1 & l' & b1 & _ & _ & _ & _ & _ & _ & _ & _ & _ & _ & _ & _ & _ & ->). fr.
  - apply relock_from_balance_inv in H as (v & vp & l' & _ & _ & _ & _ & _ & _ & _ & _ & ->). fr.
  - apply clear_positions_inv in H as (v & v1 & _ & _ & _ & ->). fr.
  - unfold vote in H. rinv. apply vote_shape in H as (v & v' & _ & _ & vs & hv & hp & ->). fr.
  - apply rebalance_shape in H as (v & v' & _ & _ & vs & hv & hp & ->). fr.
  - unfold unvote in H. rinv. apply unvote_shape in H as (_ & v & v' & _ & _ & vs & hv & hp & ->). fr.
  - apply migration_shape in H as (_ & v' & _ & _ & t & ud & -> & _). fr.
  - apply mirror_shape in H as (vps & v' & _ & _ & _ & _ & _ & _ & _ & _ & vs & hv & hp & t & ->). fr.
  - unfold operator_confirm_delegated in H. apply bind_Ok in H as (? & _ & H). apply bind_Ok in H as (? & _ & H).
    destruct (evm_pre s !! evm) as [[a g]|]; [|injection H as <-; fr].
    cbn zeta in H. destruct (evm_sigs _ !! evm) as [[old g2]|]; [|injection H as <-; fr].
    destruct (bool_decide (old = a)); [injection H as <-; fr|].
    apply bind_Ok in H as (pl & _ & H). injection H as <-. fr.
  - unfold delegated_claim_stnear in H. rinv.
    match goal with H : remove_claimable_stnear _ _ _ = Ok _ |- _ => apply remove_claimable_stnear_inv in H as (_ & _ & ->) end. fr.
  - unfold vote_delegated in H. rinv. apply vote_shape in H as (v & v' & _ & _ & vs & hv & hp & ->). fr.
  - unfold unvote_delegated in H. rinv. apply unvote_shape in H as (_ & v & v' & _ & _ & vs & hv & hp & ->). fr.
  - unfold remove_delegated_evm_address in H. apply bind_Ok in H as (? & _ & H).
    destruct (evm_sigs s !! evm) as [[a g]|]; [|discriminate].
    destruct (bool_decide (a = c_pred c)); [|discriminate]. rinv. fr.
  - unfold withdraw in H. apply withdraw_inv in H as (v & v1 & t & _ & _ & _ & _ & _ & _ & _ & -> & [(_ & _ & ->)|(_ & ->)]); fr.
  - unfold withdraw_all in H. apply bind_Ok in H as (v0 & _ & H).
    apply withdraw_inv in H as (v & v1 & t & _ & _ & _ & _ & _ & _ & _ & -> & [(_ & _ & ->)|(_ & ->)]); fr.
  - unfold after_transfer_mpdao_callback in H. rinv. destruct ok; rinv; fr.
  - unfold after_transfer_stnear_callback in H. rinv. destruct ok; rinv; [fr|].
    apply add_claimable_stnear_inv in H as (_ & _ & _ & ->). fr.
  - apply bind_Ok in H as ([s1 n] & H & H'). injection H' as <- <-.
    apply ft_shape in H as (_ & _ & [(l & _ & _ & _ & H)|(vid & days & v' & _ & _ & _ & _ & _ & t & ->)]); [|fr].
    apply distribute_frame in H as [E1 E2]. split; [discriminate|]. split; intros _; assumption.
Qed.
