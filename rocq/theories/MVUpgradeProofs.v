(** MVUpgradeProofs.v -- for C103: the upgrade on the bytes of the storage, and what follows it. *)

From Verif Require Export MVUpgradeSpec MVAskProofs.
From Verif Require Import AskMv AskProofs FlatProofs MigrateProofs MpipSized KVBytesProofs MVAuth MVInv.
Import MetaVote MVSized FlatProofs BoardBytes BoardStore BoardSim MVBytes MVCells MVStore MVRep MVSim MVPositions MVBallots MVMethods MVBytesSpec KVBytesProofs MVBytesProofs MVAsk MVAskSpec MVUpgrade MVUpgradeSpec.

Definition oroot (s : state) : oldroot :=
  mkOldRoot (owner_id s) (operator_id s) (KVBytesProofs.hd (sk0 2) (length (voters s))) (KVBytesProofs.hd (sk0 3) (length (votes s))) (min_unbond s) (max_unbond s) (min_deposit s)
    (max_lps s) (max_vps s) (mpdao_addr s) (total_vp s) (KVBytesProofs.hd (sk0 6) (length (claim_mp s))) (accum_mp s) (uncl_mp s) (stnear_addr s)
    (KVBytesProofs.hd (sk0 7) (length (claim_st s))) (accum_st s) (uncl_st s) (reg_cost s) (KVBytesProofs.hd (sk0 8) (length (user_data s))) (prev_gov s)
    (KVBytesProofs.hd (sk0 9) (length (evm_delegates s))) (sk0 11) (sk0 10).
Lemma mroot_with s : mroot s = root_with (oroot s) (lock_end s) (lock_addr s) (lock_id s).
Proof. reflexivity. Qed.
Lemma old_is s : old_bytes s = enc_old (oroot s).
Proof. reflexivity. Qed.
Lemma oroot_fits H NM n self st s : Rep H NM n self st s -> cap n -> old_fits (oroot s).
Proof.
  intros (E & I0 & O & (A1 & A2 & A3 & A4 & A5 & A6) & _) cn.
  assert (F : forall k x, (x <= n)%nat -> umh_fits (KVBytesProofs.hd (sk0 k) x)). { intros k x L. apply hd_fits; [cbn; lia|]. exact (cap_small n x cn L). }
  pose proof (proj2 (I0 LVoters I)) as L1. pose proof (proj2 (I0 LVotes I)) as L2. pose proof (proj2 (I0 LMp I)) as L3. pose proof (proj2 (I0 LSt I)) as L4.
  pose proof (proj2 (I0 LData I)) as L5. pose proof (proj2 (I0 LDel I)) as L6. cbn [gof gVoters gVotes gMp gSt gData gDel] in *.
  destruct O. unfold old_fits, oroot. cbn [o_owner_id o_operator_id o_voters o_votes o_min_unbond_period o_max_unbond_period o_min_deposit_amount o_max_locking_positions
      o_max_voting_positions o_mpdao_token_contract_address o_total_voting_power o_claimable_mpdao o_accumulated_mpdao_distributed_for_claims
      o_total_unclaimed_mpdao o_stnear_token_contract_address o_claimable_stnear o_accum_distributed_stnear_for_claims o_total_unclaimed_stnear
      o_registration_cost o_associated_user_data o_prev_governance_contract o_evm_delegates o_evm_pre_delegation o_evm_delegation_signatures].
  repeat match goal with |- _ /\ _ => split end; first [assumption|apply F; assumption|vm_compute; reflexivity].
Qed.
Lemma ok_unlocked s : OK s -> OK (unlocked s).
Proof. intros O. destruct O. constructor; first [assumption|vm_compute; reflexivity]. Qed.
Lemma rep_unlocked H NM n self st s b : Rep H NM n self st s -> Rep H NM n self (<["STATE" := enc_new (mroot (unlocked s))]> (<["STATE" := b]> st)) (unlocked s).
Proof.
  intros (E & I0 & O & (A1 & A2 & A3 & A4 & A5 & A6) & Es). split; [rewrite lookup_insert; reflexivity|]. split; [apply inv_state, inv_state; exact I0|].
  split; [exact (ok_unlocked s O)|]. split; [|exact Es]. unfold Strs. cbn. repeat split; assumption.
Qed.
Lemma migrate_old H NM n self st s c : Rep H NM n self st s -> cap n -> c_deposit c = 0 -> c_pred c = self ->
  xb_migrate self (outdated s st) c = Ok (<["STATE" := enc_new (mroot (unlocked s))]> (outdated s st)).
Proof.
  intros R cn Hd Hp. unfold xb_migrate, outdated. rewrite lookup_insert. unfold migrate, non_payable, assert_private, state_read. rewrite Hd, Hp, old_is.
  assert (E : try_from_slice dec_old (enc_old (oroot s)) = Some (oroot s)).
  { unfold try_from_slice. rewrite <- (sapp_nil (enc_old _)), dec_enc_old by exact (oroot_fits _ _ _ _ _ _ R cn). reflexivity. }
  rewrite E. rewrite bool_decide_true by reflexivity. reflexivity.
Qed.

Lemma c103_upgrade H a tr more s0 st0 c : usual_init a -> usual_calls H (tr ++ more) -> mv_new a = Ok s0 -> xb_new ∅ a = Ok st0 ->
  c_deposit c = 0 -> c_pred c = i_self a ->
  let s := run s0 tr in let old := outdated s (xb_run H (i_self a) st0 tr) in
  exists st', xb_migrate (i_self a) old c = Ok st' /\
    st' !! "STATE" = Some (vote_bytes (unlocked s)) /\ (forall k, k <> "STATE" -> st' !! k = old !! k) /\
    xb_gives H (i_self a) st' more = mv_gives (unlocked s) more /\
    (forall now q, usual_question H (tr ++ more) q -> same_answer (xb_ask H now (xb_run H (i_self a) st' more) q) (mv_answer now (run (unlocked s) more) q)) /\
    (forall c', exists e, xb_migrate (i_self a) (xb_run H (i_self a) st' more) c' = Panic e).
Proof.
  intros U (Sz & Tx & cn & H32 & Hinj) E E0 Hd Hp s old. apply Forall_app in Sz as [Sz1 Sz2]. apply Forall_app in Tx as [Tx1 Tx2]. rewrite adds_app in cn.
  assert (c1 : cap (adds tr)) by (apply (cap_le _ _ cn); lia).
  assert (K : forall NM : string -> Prop, (forall x y, NM x -> NM y -> H x = H y -> x = y) -> (forall x, hashed_in (tr ++ more) x -> NM x) ->
    xb_migrate (i_self a) old c = Ok (<["STATE" := enc_new (mroot (unlocked s))]> old) /\
    Rep H NM (adds tr + adds more) (i_self a) (xb_run H (i_self a) (<["STATE" := enc_new (mroot (unlocked s))]> old) more) (run (unlocked s) more) /\
    xb_gives H (i_self a) (<["STATE" := enc_new (mroot (unlocked s))]> old) more = mv_gives (unlocked s) more).
  { intros NM Hj Hn. pose proof (new_rep H NM a U) as X. rewrite E in X. destruct X as (st1 & E1 & R). rewrite E0 in E1. injection E1 as <-.
    assert (N1 : forall x, hashed_in tr x -> NM x) by (intros x (y & Hy & Hx); apply Hn; exists y; split; [apply in_or_app; left|]; assumption).
    assert (N2 : forall x, hashed_in more x -> NM x) by (intros x (y & Hy & Hx); apply Hn; exists y; split; [apply in_or_app; right|]; assumption).
    destruct (runs_rep H NM (i_self a) tr H32 Hj N1 Sz1 Tx1 0 s0 st0 c1 R) as [R1 _]. cbn [Nat.add] in R1. fold s in R1.
    split; [exact (migrate_old _ _ _ _ _ _ c R1 c1 Hd Hp)|].
    exact (runs_rep H NM (i_self a) more H32 Hj N2 Sz2 Tx2 (adds tr) (unlocked s) _ cn (rep_unlocked H NM _ _ _ _ (old_bytes s) R1)). }
  destruct (K _ Hinj (fun x Hx => Hx)) as (Ka & Kb & Kc).
  exists (<["STATE" := enc_new (mroot (unlocked s))]> old). split; [exact Ka|]. split; [rewrite lookup_insert; reflexivity|].
  split; [intros k Hk; rewrite lookup_insert_ne by congruence; reflexivity|]. split; [exact Kc|]. split.
  - intros now q [Qt Qa]. set (NM := fun x => hashed_in (tr ++ more) x \/ In x (about q)).
    assert (Hone : forall x y, In x (about q) -> In y (about q) -> x = y).
    { intros x y. destruct q; cbn [about In]; try tauto; intros [<-|[]] [<-|[]]; reflexivity. }
    assert (Hj : forall x y, NM x -> NM y -> H x = H y -> x = y).
    { intros x y [X|X] [Y|Y] Eq; [exact (Hinj _ _ X Y Eq)|exact (Qa _ _ Y X Eq)|symmetry; exact (Qa _ _ X Y (eq_sym Eq))|exact (Hone _ _ X Y)]. }
    destruct (K NM Hj (fun x Hx => or_introl Hx)) as (_ & R1 & _).
    unfold xb_ask. rewrite (load_ok H NM _ _ _ _ R1 cn). cbn [mbind res_bind]. apply sim_same_answer.
    refine (view_sim H NM H32 (adds tr + adds more) now _ _ q _ cn Qt _); [|intros v Hv; right; exact Hv].
    split; [reflexivity|]. exact (proj1 (proj2 R1)).
  - intros c'. unfold xb_migrate. rewrite (proj1 Kb), mroot_with.
    destruct (migrate c' _ _) as [b|e] eqn:Em; [|cbn; eauto]. destruct (c33_once _ _ _ _ _ _ _ (oroot_fits _ _ _ _ _ _ Kb cn) Em).
Qed.

(** ** Histories without filters *)
Lemma filters_step x s : no_filter x -> (lock_end (step s x), lock_addr (step s x), lock_id (step s x)) = (lock_end s, lock_addr s, lock_id s).
Proof.
  destruct x as [c o]. unfold no_filter. cbn [snd]. intros N. unfold step. cbn [fst snd]. destruct (exec c s o) as [[s' e]|] eqn:Hx; [|reflexivity].
  destruct (is_cfg_op o) eqn:Ef.
  - destruct o; try discriminate Ef; try contradiction; cbn [exec] in Hx; apply noeff_Ok in Hx as [Hx _];
    unfold set_stnear_contract, set_operator_id, set_owner_id, update_registration_cost,
      update_min_unbond_period, update_max_unbond_period, set_prev_gov_contract in Hx; rinv; reflexivity.
  - apply exec_cfg in Hx; [|exact Ef]. unfold cfg in Hx. congruence.
Qed.
Lemma filters_run tr : forall s, Forall no_filter tr -> (lock_end (run s tr), lock_addr (run s tr), lock_id (run s tr)) = (lock_end s, lock_addr s, lock_id s).
Proof.
  induction tr as [|x tr IH]; intros s F; [reflexivity|]. apply Forall_cons in F as [F1 F2]. unfold run. cbn [fold_left]. etransitivity; [exact (IH _ F2)|exact (filters_step x s F1)].
Qed.
Lemma c103_seamless H a tr s0 st0 c : usual_init a -> usual_calls H tr -> Forall no_filter tr -> mv_new a = Ok s0 -> xb_new ∅ a = Ok st0 ->
  c_deposit c = 0 -> c_pred c = i_self a ->
  xb_migrate (i_self a) (outdated (run s0 tr) (xb_run H (i_self a) st0 tr)) c = Ok (xb_run H (i_self a) st0 tr).
Proof.
  intros U C F E E0 Hd Hp. destruct (c100_rep H a tr s0 U C E) as (st1 & E3 & R & _). rewrite E0 in E3. injection E3 as <-.
  rewrite (migrate_old _ _ _ _ _ _ c R (proj1 (proj2 (proj2 C))) Hd Hp). f_equal. unfold outdated. rewrite insert_insert.
  pose proof (filters_run tr s0 F) as X. assert (X0 : lock_end s0 = 0 /\ lock_addr s0 = None /\ lock_id s0 = 0) by (unfold mv_new in E; rinv; auto).
  destruct X0 as (x1 & x2 & x3). rewrite x1, x2, x3 in X. injection X as y1 y2 y3.
  assert (Em : mroot (unlocked (run s0 tr)) = mroot (run s0 tr)) by (unfold mroot, unlocked; cbn; rewrite y1, y2, y3; reflexivity).
  rewrite Em. apply insert_id. exact (proj1 R).
Qed.

(** ** Before the upgrade *)
Lemma dec_new_old o : old_fits o -> dec_new (enc_old o) = None.
Proof.
  intros Hf. pose proof (dec_enc_old o "" Hf) as D. rewrite sapp_nil in D. revert D. unfold dec_old, dec_new. generalize (enc_old o). intros b D.
  do 24 (first [ destruct (dec_str _) as [[? ?]|]; [|discriminate] | destruct (dec_umh _) as [[? ?]|]; [|discriminate] | destruct (dec_uint _ _) as [[? ?]|]; [|discriminate] ]; cbn [mbind option_bind] in D |- *).
  injection D as _ ->. reflexivity.
Qed.
Lemma c103_before H a tr s0 st0 : usual_init a -> usual_calls H tr -> mv_new a = Ok s0 -> xb_new ∅ a = Ok st0 ->
  let old := outdated (run s0 tr) (xb_run H (i_self a) st0 tr) in
  (forall self c o, exists e, xb_call H self old c o = Panic e) /\ (forall now q, exists e, xb_ask H now old q = Panic e) /\ (forall a', exists e, xb_new old a' = Panic e).
Proof.
  intros U C E E0 old. destruct (c100_rep H a tr s0 U C E) as (st1 & E3 & R & _). rewrite E0 in E3. injection E3 as <-.
  assert (L : exists e, xb_load old = Panic e).
  { unfold xb_load, old, outdated. rewrite lookup_insert. cbn [expect mbind res_bind]. unfold try_from_slice.
    rewrite old_is, (dec_new_old _ (oroot_fits _ _ _ _ _ _ R (proj1 (proj2 (proj2 C))))). cbn. eauto. }
  destruct L as [e L]. split; [|split].
  - intros self c o. unfold xb_call. rewrite L. cbn. eauto.
  - intros now q. unfold xb_ask. rewrite L. cbn. eauto.
  - intros a'. unfold xb_new, old, outdated. rewrite lookup_insert. rewrite bool_decide_true by eauto. cbn. eauto.
Qed.
Lemma c103_only_self self st c st' : xb_migrate self st c = Ok st' -> c_pred c = self /\ c_deposit c = 0.
Proof. unfold xb_migrate. intros X. apply bind_Ok in X as (b & X & _). exact (c33_only_self _ _ _ _ X). Qed.
Lemma c103_before_new self c : exists e, xb_migrate self ∅ c = Panic e.
Proof. unfold xb_migrate. rewrite lookup_empty. destruct (migrate c self None) as [b|e] eqn:E; [destruct (c33_absent _ _ _ E)|cbn; eauto]. Qed.
