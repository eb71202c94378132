(** Props_Near.v -- C69: the NEAR attached to calls and sent by the two contracts. *)

From Verif Require Import Near MVWitness MpipRefuted.

(** C69: what an accepted call of the voting contract attaches and sends *)
Theorem C69_call :
  forall c s o s' e, exec c s o = Ok (s', e) ->
  near_due s o (c_deposit c) /\ near_sent e = (if pays_out o then 1 else 0).
Proof. exact due_exec. Qed.
Print Assumptions C69_call.

(** over every history the contract sends at most what it received, less the registration fees, plus
    one yoctoNEAR per stNEAR claim *)
Theorem C69_history :
  forall a s0 tr, mv_new a = Ok s0 ->
  total_sent s0 tr + total_fees s0 tr <= total_attached s0 tr + stnear_claims s0 tr.
Proof. intros a s tr _. apply c69_history. Qed.
Print Assumptions C69_history.

(** Without the last term this is false: each stNEAR claim costs the contract one yoctoNEAR. *)
Theorem C69_claims_cost_refuted :
  ~ (forall a s0 tr, mv_new a = Ok s0 -> timed tr -> total_sent s0 tr <= total_attached s0 tr).
Proof.
  intros H. assert (Ht : timed (firstn 15 tr_demo)) by (unfold tr_demo; cbn [firstn]; timed_tac).
  specialize (H ia s0 _ s0_ok Ht). revert H.
  assert (E1 : total_sent s0 (firstn 15 tr_demo) = 1) by vmr.
  assert (E2 : total_attached s0 (firstn 15 tr_demo) = 0) by vmr.
  rewrite E1, E2. intros H. apply H. reflexivity.
Qed.
Print Assumptions C69_claims_cost_refuted.

(** A claim for a delegated account keeps whatever is attached to it. *)
Definition tr_evm_claim (d : N) : list call :=
  [ usr1 "a.near" 5 (PreDelegate "0x1" "sig"); usr1 "opr.near" 5 (OpConfirm "0x1");
    claims "stnear.near" (2 * 100000000000000000000) [("0x1.evmp.near", 2)] 6;
    (cx "a.near" d 7, DelegatedClaim "0x1" 100000000000000000000) ].
Theorem C69_delegated_claim_refuted :
  ~ (forall a s0 tr c o s' e, mv_new a = Ok s0 -> timed (tr ++ [(c, o)]) -> exec c (run s0 tr) o = Ok (s', e) ->
       c_deposit c <= 1 \/ c_deposit c = get_registration_cost (run s0 tr)).
Proof.
  intros H. set (tr := firstn 3 (tr_evm_claim 0)).
  destruct (exec (cx "a.near" 1000 7) (run s0 tr) (DelegatedClaim "0x1" 100000000000000000000)) as [[s' e]|] eqn:E.
  - specialize (H ia s0 tr (cx "a.near" 1000 7) (DelegatedClaim "0x1" 100000000000000000000) s' e s0_ok). destruct H as [H|H].
    + unfold tr, tr_evm_claim; cbn [firstn app]. timed_tac.
    + exact E.
    + apply H. reflexivity.
    + revert H. assert (E1 : get_registration_cost (run s0 tr) = get_registration_cost s0) by vmr. rewrite E1.
      assert (E2 : (1000 =? get_registration_cost s0) = false) by vmr. apply N.eqb_neq in E2. exact E2.
  - assert (P : panics (exec (cx "a.near" 1000 7) (run s0 tr) (DelegatedClaim "0x1" 100000000000000000000)) = false) by vmr.
    rewrite E in P. discriminate P.
Qed.
Print Assumptions C69_delegated_claim_refuted.

(** the numbers of a long ordinary history with a paid registration *)
Example C69_example :
  let tr := (tr_demo ++ [ (cx "a.near" (get_registration_cost s0) (200 * DAY), UpdateAirdrop "secret") ])%list in
  (0 <? get_registration_cost s0) = true /\
  total_fees s0 tr = get_registration_cost s0 /\
  total_sent s0 tr = 3 /\ stnear_claims s0 tr = 1 /\
  total_attached s0 tr = get_registration_cost s0 + 2 /\
  panics (exec (cx "a.near" 1 (200 * DAY)) (run s0 tr_demo) (UpdateAirdrop "secret")) = true.
Proof. conj; vmr. Qed.

(** *** The proposal contract *)

(** Only creating a proposal may attach NEAR, and it attaches at least the storage price; only the
    administrator makes the contract pay; only creating, starting and voting send a query, with the
    one yoctoNEAR it takes along. *)
Theorem C69_mpip_call :
  forall c s o s' out, mcall c s o = Ok (s', out) ->
  (c_deposit c <> 0 -> exists ct, o = CreateProposal ct) /\
  (forall ct, o = CreateProposal ct -> m_storage s <= c_deposit c) /\
  (forall to n, out = OPay to n -> o = PayToAccount n to /\ c_signer c = m_admin s) /\
  (forall p, out = OAsk p -> (exists ct, o = CreateProposal ct) \/ (exists id, o = StartVoting id) \/
                            (exists id vt memo, o = VoteProposal id vt memo)).
Proof.
  intros c s o s' out H. pose proof H as H0. apply mcall_near in H as (H1 & H2 & H3 & _).
  split; [exact H1|]. split; [exact H2|]. split; [exact H3|]. intros p ->. apply mcall_asks in H0 as (_ & _ & _ & H0).
  destruct (pd_kind p); destruct H0 as [-> _]; eauto 6.
Qed.
Print Assumptions C69_mpip_call.

(** Every proposal has been paid for: as long as the price is at least [K], the calls so far have
    attached at least [K] per proposal. *)
Theorem C69_mpip_paid :
  forall a s0 tr K, mpip_new a = Ok s0 -> price_at_least K (winit s0) tr ->
  K * N.of_nat (n_proposals (w_m (wrun (winit s0) tr))) <= wsum m_attached (winit s0) tr.
Proof. exact c69_proposals. Qed.
Print Assumptions C69_mpip_paid.

(** The converse is false: the deposit is kept although no proposal comes out of it. *)
Theorem C69_mpip_kept_refuted :
  ~ (forall a s0 tr, mpip_new a = Ok s0 -> mtimed tr -> w_pend (wrun (winit s0) tr) = [] ->
       0 < wsum m_attached (winit s0) tr -> n_proposals (w_m (wrun (winit s0) tr)) <> O).
Proof.
  intros H. set (tr := [ mcreate "alice" 10 "P0"; ans_pos 0 11 [pos 99 true] ]).
  assert (Ht : mtimed tr) by mtimed_tac.
  assert (E1 : w_pend (wrun (winit ms0) tr) = []) by mvmr.
  assert (E2 : wsum m_attached (winit ms0) tr = 5) by mvmr.
  assert (E3 : n_proposals (w_m (wrun (winit ms0) tr)) = O) by mvmr.
  specialize (H mia ms0 tr ms0_ok Ht E1). rewrite E2 in H. exact (H eq_refl E3).
Qed.
Print Assumptions C69_mpip_kept_refuted.

(** The queries are not covered by the callers: whoever votes costs the contract one yoctoNEAR. *)
Theorem C69_mpip_queries_refuted :
  ~ (forall a s0 tr c o, mpip_new a = Ok s0 -> mtimed (tr ++ [MCall c o]) ->
       m_asked (wrun (winit s0) tr) (MCall c o) <= m_attached (wrun (winit s0) tr) (MCall c o)).
Proof.
  intros H. set (x := mc "bob" 30 (VoteProposal 0 VFor "a")).
  assert (Ht : mtimed (tr_open ++ [x])) by mtimed_tac.
  specialize (H mia ms0 tr_open _ _ ms0_ok Ht). revert H.
  change (m_asked (wrun (winit ms0) tr_open) x <= m_attached (wrun (winit ms0) tr_open) x -> False).
  assert (E1 : m_asked (wrun (winit ms0) tr_open) x = 1) by mvmr.
  assert (E2 : m_attached (wrun (winit ms0) tr_open) x = 0) by mvmr.
  rewrite E1, E2. intros H. apply H. reflexivity.
Qed.
Print Assumptions C69_mpip_queries_refuted.

Example C69_mpip_example :
  let tr := (tr_open ++ [ mcreate "bob" 30 "P1"; ans_pos 0 31 [pos 200 true];
              mc "adm.near" 40 (PayToAccount 7 "carol") ])%list in
  mall_ok mw0 tr = true /\ price_at_least 5 mw0 tr /\
  n_proposals (w_m (wrun mw0 tr)) = 2%nat /\ wsum m_attached mw0 tr = 10 /\ wsum m_paid mw0 tr = 7 /\ wsum m_asked mw0 tr = 3 /\
  event_ok mw0 (mc "op.near" 1 (PayToAccount 7 "carol")) = false.
Proof.
  mconj; [mvmr| |mvmr|mvmr|mvmr|mvmr|mvmr].
  intros tr1 tr2 E. unfold tr_open in E. cbn [app] in E.
  do 7 (destruct tr1 as [|x tr1]; [vm_compute; discriminate|injection E as <- E]).
  destruct tr1; [vm_compute; discriminate|discriminate E].
Qed.
