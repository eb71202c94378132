(** MigrateProofs.v -- C33: the state upgrade loses nothing. *)

From Verif Require Export Migrate MVCases.

(** *** Specification *)
(** values that fit their Rust types *)
Definition str_fits (s : string) : Prop := N.of_nat (String.length s) < U32_SIZE.
Definition umh_fits (h : umh) : Prop :=
  str_fits (um_pre h) /\ um_klen h < U64_SIZE /\ str_fits (um_kpre h) /\ um_vlen h < U64_SIZE /\ str_fits (um_vpre h).
Definition old_fits (o : oldroot) : Prop :=
  str_fits (o_owner_id o) /\ str_fits (o_operator_id o) /\ umh_fits (o_voters o) /\ umh_fits (o_votes o) /\
  o_min_unbond_period o < U16_SIZE /\ o_max_unbond_period o < U16_SIZE /\ o_min_deposit_amount o < U128_SIZE /\
  o_max_locking_positions o < U8_SIZE /\ o_max_voting_positions o < U8_SIZE /\
  str_fits (o_mpdao_token_contract_address o) /\ o_total_voting_power o < U128_SIZE /\
  umh_fits (o_claimable_mpdao o) /\ o_accumulated_mpdao_distributed_for_claims o < U128_SIZE /\
  o_total_unclaimed_mpdao o < U128_SIZE /\
  str_fits (o_stnear_token_contract_address o) /\ umh_fits (o_claimable_stnear o) /\
  o_accum_distributed_stnear_for_claims o < U128_SIZE /\ o_total_unclaimed_stnear o < U128_SIZE /\
  o_registration_cost o < U128_SIZE /\ umh_fits (o_associated_user_data o) /\ str_fits (o_prev_governance_contract o) /\
  umh_fits (o_evm_delegates o) /\ str_fits (o_evm_pre_delegation o) /\ str_fits (o_evm_delegation_signatures o).
(** the root with the fields of [o] and the given filters *)
Definition root_with (o : oldroot) (e : N) (a : option string) (i : N) : newroot :=
  mkNewRoot (o_owner_id o) (o_operator_id o) (o_voters o) (o_votes o) (o_min_unbond_period o) (o_max_unbond_period o)
    (o_min_deposit_amount o) (o_max_locking_positions o) (o_max_voting_positions o) (o_mpdao_token_contract_address o)
    (o_total_voting_power o) (o_claimable_mpdao o) (o_accumulated_mpdao_distributed_for_claims o) (o_total_unclaimed_mpdao o)
    (o_stnear_token_contract_address o) (o_claimable_stnear o) (o_accum_distributed_stnear_for_claims o)
    (o_total_unclaimed_stnear o) (o_registration_cost o) (o_associated_user_data o) (o_prev_governance_contract o)
    (o_evm_delegates o) (o_evm_pre_delegation o) (o_evm_delegation_signatures o) e a i.
Definition filters_fit (e : N) (a : option string) (i : N) : Prop :=
  e < U64_SIZE /\ i < U16_SIZE /\ match a with Some s => str_fits s | None => True end.

(** every view but get_lock_in_vote_filters answers the same on [s] and [s'] *)
Definition same_views (s s' : state) : Prop :=
  get_contract_info s' = get_contract_info s /\
  get_voters_count s' = get_voters_count s /\
  get_total_voting_power s' = get_total_voting_power s /\
  (forall now vid, get_voter_info now s' vid = get_voter_info now s vid) /\
  (forall now from limit, get_voters now s' from limit = get_voters now s from limit) /\
  (forall now vid, get_all_locking_positions now s' vid = get_all_locking_positions now s vid) /\
  (forall now i vid, get_locking_position now s' i vid = get_locking_position now s i vid) /\
  (forall now vid, get_balance now s' vid = get_balance now s vid) /\
  (forall vid, get_locked_balance s' vid = get_locked_balance s vid) /\
  (forall now vid, get_unlocking_balance now s' vid = get_unlocking_balance now s vid) /\
  (forall vid, get_available_voting_power s' vid = get_available_voting_power s vid) /\
  (forall vid, get_used_voting_power s' vid = get_used_voting_power s vid) /\
  (forall addr obj, get_total_votes s' addr obj = get_total_votes s addr obj) /\
  (forall vid addr obj, get_votes_for_object s' vid addr obj = get_votes_for_object s vid addr obj) /\
  (forall addr, get_votes_by_app s' addr = get_votes_by_app s addr) /\
  (forall vid, get_claimable_mpdao s' vid = get_claimable_mpdao s vid) /\
  (forall vid, get_claimable_stnear s' vid = get_claimable_stnear s vid) /\
  (forall from limit, get_claims s' from limit = get_claims s from limit) /\
  (forall from limit, get_stnear_claims s' from limit = get_stnear_claims s from limit) /\
  get_total_unclaimed_mpdao s' = get_total_unclaimed_mpdao s /\
  get_accumulated_mpdao s' = get_accumulated_mpdao s /\
  (forall a, check_if_registered s' a = check_if_registered s a) /\
  (forall a, get_airdrop_account s' a = get_airdrop_account s a) /\
  (forall from limit, get_airdrop_accounts s' from limit = get_airdrop_accounts s from limit) /\
  (forall evm, get_pre_delegate s' evm = get_pre_delegate s evm) /\
  (forall evm, get_delegate s' evm = get_delegate s evm) /\
  (forall evm, get_delegation_signature s' evm = get_delegation_signature s evm) /\
  (forall a, get_delegating_evm_addresses s' a = get_delegating_evm_addresses s a) /\
  (forall from limit, get_delegates s' from limit = get_delegates s from limit).

(** ** Proofs *)
Lemma sapp_assoc (a b c : string) : ((a +:+ b) +:+ c = a +:+ (b +:+ c))%string.
Proof. induction a as [|x a IH]; [reflexivity|]. change (String x ((a +:+ b) +:+ c) = String x (a +:+ (b +:+ c))). rewrite IH. reflexivity. Qed.
Lemma sapp_nil (a : string) : (a +:+ "" = a)%string.
Proof. induction a as [|x a IH]; [reflexivity|]. change (String x (a +:+ "") = String x a). rewrite IH. reflexivity. Qed.

Lemma dec_enc_uint n : forall x r, x < 256 ^ N.of_nat n -> dec_uint n (enc_uint n x +:+ r) = Some (x, r).
Proof.
  induction n as [|n IH]; intros x r Hx.
  - cbn in *. f_equal. f_equal. lia.
  - cbn [enc_uint dec_uint]. change (String ?a ?b +:+ r)%string with (String a (b +:+ r)). cbn [dec_uint].
    rewrite Nat2N.inj_succ, N.pow_succ_r' in Hx.
    rewrite IH by (apply N.div_lt_upper_bound; lia). cbn [mbind option_bind].
    rewrite N_ascii_embedding by (apply N.mod_lt; lia). do 2 f_equal. pose proof (N.div_mod x 256). lia.
Qed.
Lemma dec_u8 x r : x < U8_SIZE -> dec_uint 1 (enc_uint 1 x +:+ r) = Some (x, r).
Proof. apply (dec_enc_uint 1). Qed.
Lemma dec_u16 x r : x < U16_SIZE -> dec_uint 2 (enc_uint 2 x +:+ r) = Some (x, r).
Proof. apply (dec_enc_uint 2). Qed.
Lemma dec_u32 x r : x < U32_SIZE -> dec_uint 4 (enc_uint 4 x +:+ r) = Some (x, r).
Proof. apply (dec_enc_uint 4). Qed.
Lemma dec_u64 x r : x < U64_SIZE -> dec_uint 8 (enc_uint 8 x +:+ r) = Some (x, r).
Proof. apply (dec_enc_uint 8). Qed.
Lemma dec_u128 x r : x < U128_SIZE -> dec_uint 16 (enc_uint 16 x +:+ r) = Some (x, r).
Proof. apply (dec_enc_uint 16). Qed.
Lemma split_str_app s r : split_str (String.length s) (s +:+ r) = Some (s, r).
Proof.
  induction s as [|a s IH]; [destruct r; reflexivity|]. change (String a s +:+ r)%string with (String a (s +:+ r)).
  cbn [String.length split_str]. rewrite IH. reflexivity.
Qed.
Lemma dec_enc_str s r : str_fits s -> dec_str (enc_str s +:+ r) = Some (s, r).
Proof.
  intros H. unfold dec_str, enc_str. rewrite sapp_assoc, dec_u32 by exact H. cbn [mbind option_bind].
  rewrite Nat2N.id. apply split_str_app.
Qed.
Lemma dec_enc_opt o r : match o with Some s => str_fits s | None => True end -> dec_opt (enc_opt o +:+ r) = Some (o, r).
Proof.
  intros H. unfold dec_opt, enc_opt. destruct o as [s|].
  - rewrite sapp_assoc, dec_u8 by (vm_compute; reflexivity). cbn [mbind option_bind N.eqb Pos.eqb]. rewrite dec_enc_str by exact H. reflexivity.
  - rewrite dec_u8 by (vm_compute; reflexivity). reflexivity.
Qed.
Lemma dec_enc_umh h r : umh_fits h -> dec_umh (enc_umh h +:+ r) = Some (h, r).
Proof.
  intros (H1 & H2 & H3 & H4 & H5). unfold dec_umh, enc_umh. rewrite !sapp_assoc.
  rewrite dec_enc_str by exact H1. cbn [mbind option_bind]. rewrite dec_u64 by exact H2. cbn [mbind option_bind].
  rewrite dec_enc_str by exact H3. cbn [mbind option_bind]. rewrite dec_u64 by exact H4. cbn [mbind option_bind].
  rewrite dec_enc_str by exact H5. cbn [mbind option_bind]. destruct h; reflexivity.
Qed.
Local Opaque enc_uint dec_uint enc_str dec_str enc_umh dec_umh enc_opt dec_opt.
Ltac dec_one :=
  first [ rewrite dec_enc_str by assumption | rewrite dec_enc_umh by assumption
        | rewrite dec_enc_opt by assumption | rewrite dec_u8 by assumption | rewrite dec_u16 by assumption
        | rewrite dec_u64 by assumption | rewrite dec_u128 by assumption ];
  cbn [mbind option_bind].
Lemma dec_enc_old o r : old_fits o -> dec_old (enc_old o +:+ r) = Some (o, r).
Proof.
  unfold old_fits. intros H. decompose [and] H; clear H. unfold dec_old, enc_old. rewrite !sapp_assoc.
  do 24 dec_one. destruct o; reflexivity.
Qed.
Lemma dec_enc_new o e a i r : old_fits o -> filters_fit e a i -> dec_new (enc_new (root_with o e a i) +:+ r) = Some (root_with o e a i, r).
Proof.
  unfold old_fits, filters_fit. intros H H2. decompose [and] H; clear H. destruct H2 as (? & ? & ?). unfold dec_new, enc_new. rewrite !sapp_assoc.
  cbn [root_with n_owner_id n_operator_id n_voters n_votes n_min_unbond_period n_max_unbond_period n_min_deposit_amount n_max_locking_positions
    n_max_voting_positions n_mpdao_token_contract_address n_total_voting_power n_claimable_mpdao n_accumulated_mpdao_distributed_for_claims
    n_total_unclaimed_mpdao n_stnear_token_contract_address n_claimable_stnear n_accum_distributed_stnear_for_claims n_total_unclaimed_stnear
    n_registration_cost n_associated_user_data n_prev_governance_contract n_evm_delegates n_evm_pre_delegation n_evm_delegation_signatures
    n_lock_votes_in_end_timestamp_ms n_lock_votes_in_address n_lock_votes_in_numeric_id].
  do 27 dec_one. reflexivity.
Qed.
Lemma enc_new_old o e a i : enc_new (root_with o e a i) = (enc_old o +:+ (enc_uint 8 e +:+ enc_opt a +:+ enc_uint 2 i))%string.
Proof.
  unfold enc_old. rewrite !sapp_assoc. reflexivity.
Qed.

Lemma c33_views rd self c o :
  old_fits o -> c_deposit c = 0 -> c_pred c = self ->
  exists b n, migrate c self (Some (enc_old o)) = Ok b /\ try_from_slice dec_new b = Some n /\
    get_lock_in_vote_filters (state_of rd self n) = (0, None, 0) /\
    (forall now addr obj, ~ lock_in_applies (state_of rd self n) now addr obj) /\
    forall e a i, same_views (state_of rd self (root_with o e a i)) (state_of rd self n).
Proof.
  intros Hf Hd Hp. exists (enc_new (migrate_root o)), (migrate_root o).
  assert (E : try_from_slice dec_old (enc_old o) = Some o).
  { unfold try_from_slice. rewrite <- (sapp_nil (enc_old o)), dec_enc_old by exact Hf. reflexivity. }
  split.
  { unfold migrate, non_payable, assert_private, state_read. rewrite Hd, Hp, E. rewrite bool_decide_true by reflexivity. reflexivity. }
  split.
  { change (migrate_root o) with (root_with o 0 None 0). unfold try_from_slice. rewrite <- (sapp_nil (enc_new _)), dec_enc_new; [reflexivity|exact Hf|].
    split; [reflexivity|]. split; [reflexivity|exact I]. }
  split; [reflexivity|]. split.
  { intros now addr obj. unfold lock_in_applies. cbn. intuition discriminate. }
  intros e a i. unfold same_views. repeat match goal with |- _ /\ _ => split end; reflexivity.
Qed.
Lemma c33_only_self c self st b : migrate c self st = Ok b -> c_pred c = self /\ c_deposit c = 0.
Proof.
  unfold migrate, non_payable, assert_private. intros H. apply bind_Ok in H as (? & H1 & H). apply bind_Ok in H as (? & H2 & _).
  apply require_Ok in H1, H2. apply N.eqb_eq in H1. apply bool_decide_eq_true in H2. auto.
Qed.
Local Transparent enc_uint.
Lemma c33_once c self o e a i b : old_fits o -> migrate c self (Some (enc_new (root_with o e a i))) <> Ok b.
Proof.
  intros Hf H. unfold migrate in H. apply bind_Ok in H as (? & _ & H). apply bind_Ok in H as (? & _ & H). apply bind_Ok in H as (x1 & H & _).
  unfold state_read in H. apply bind_Ok in H as (x2 & H & _). apply expect_Ok in H. unfold try_from_slice in H.
  rewrite enc_new_old, dec_enc_old in H by exact Hf. cbn [enc_uint] in H. discriminate H.
Qed.
Lemma c33_absent c self b : migrate c self None <> Ok b.
Proof.
  intros H. unfold migrate in H. apply bind_Ok in H as (? & _ & H). apply bind_Ok in H as (? & _ & H). cbn in H. discriminate.
Qed.
(** an upgraded contract is in a state the contract could have reached by itself *)
Lemma c33_reachable s0 tr rd o e a i :
  state_of rd (self_id (run s0 tr)) (root_with o e a i) = run s0 tr ->
  exists x : call, c_pred x.1 = operator_id (run s0 tr) /\
    state_of rd (self_id (run s0 tr)) (migrate_root o) = run s0 (tr ++ [x]).
Proof.
  intros E. set (s := run s0 tr) in *.
  exists (mkCtx (operator_id s) (operator_id s) 0 0 (fun _ => None) (fun _ => None), SetLockIn 0 0 None). split; [reflexivity|].
  unfold run. rewrite fold_left_app. fold (run s0 tr). fold s. cbn [fold_left]. unfold step. cbn [exec fst snd].
  unfold set_lock_in_vote_filters, non_payable, assert_operator. cbn [c_deposit c_pred]. rewrite bool_decide_true by reflexivity.
  cbn [noeff mbind res_bind require N.eqb]. rewrite <- E. reflexivity.
Qed.
