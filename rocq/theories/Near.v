(** Near.v -- C69: NEAR attached to calls and sent along by the two contracts.

    Only attached deposits and transfers are counted; gas, refunds of unused gas and storage
    staking are not modelled.  NEAR returned because the receiver failed is not counted either, so
    what is sent is an upper bound of what is lost. *)

From Verif Require Export MVSpecMoney MVView MpipSpec MpipInv MpipLife.

(** *** Specification: meta-vote-contract *)

(** what a call may attach *)
Definition near_due (s : state) (o : op) (d : N) : Prop :=
  match o with
  | SetStnear _ | SetOperator _ | SetOwner _ | UpdateMinUnbond _ | UpdateMaxUnbond _ | SetPrevGov _
  | PreDelegate _ _ | OpRemovePre _ | OpConfirm _ | RemoveDelegated _ | Withdraw _ _ | WithdrawAll => d = 1
  | UpdateAirdrop _ => d = get_registration_cost s
  | DelegatedClaim _ _ => True
  | _ => d = 0
  end.
(** withdraw.rs:69, 116: every token transfer takes one yoctoNEAR along *)
Definition near_sent (e : list eff) : N := sum_by (fun _ => 1) e.
Definition pays_out (o : op) : bool :=
  match o with Withdraw _ _ | WithdrawAll | ClaimStnear _ | DelegatedClaim _ _ => true | _ => false end.

(** over a history: received, sent, registration fees, stNEAR claims; only accepted calls count *)
Definition total_attached (s : state) (tr : list call) : N := run_sum (fun _ x _ => c_deposit x.1) s tr.
Definition total_sent (s : state) (tr : list call) : N := run_sum (fun _ _ e => near_sent e) s tr.
Definition total_fees (s : state) (tr : list call) : N :=
  run_sum (fun s x _ => match x.2 with UpdateAirdrop _ => get_registration_cost s | _ => 0 end) s tr.
Definition stnear_claims (s : state) (tr : list call) : N :=
  run_sum (fun _ x _ => match x.2 with ClaimStnear _ | DelegatedClaim _ _ => 1 | _ => 0 end) s tr.

(** *** Specification: mpip-contract *)
Fixpoint wsum (f : world -> mevent -> N) (w : world) (tr : list mevent) : N :=
  match tr with
  | [] => 0
  | x :: tr' => f w x + wsum f (wstep w x) tr'
  end.
(** attached to accepted calls *)
Definition m_attached (w : world) (x : mevent) : N :=
  match x with
  | MCall c o => match mcall c (w_m w) o with Ok _ => c_deposit c | Panic _ => 0 end
  | MAnswer _ _ _ => 0
  end.
(** paid out: lib.rs:125-128 *)
Definition m_paid (w : world) (x : mevent) : N :=
  match x with
  | MCall c o => match mcall c (w_m w) o with Ok (_, OPay _ n) => n | _ => 0 end
  | MAnswer _ _ _ => 0
  end.

(** lib.rs:182, 220, 382: every query to the voting contract takes one yoctoNEAR along *)
Definition m_asked (w : world) (x : mevent) : N :=
  match x with
  | MCall c o => match mcall c (w_m w) o with Ok (_, OAsk _) => 1 | _ => 0 end
  | MAnswer _ _ _ => 0
  end.

(** ** Proofs *)
Lemma due_exec c s o s' e :
  exec c s o = Ok (s', e) -> near_due s o (c_deposit c) /\ near_sent e = if pays_out o then 1 else 0.
Proof.
  intros H. assert (NP : forall A (k : res A) x, (_ ← non_payable c; k) = Ok x -> c_deposit c = 0).
  { intros A k x E. apply bind_Ok in E as (u & E & _). apply require_Ok in E. apply N.eqb_eq in E. exact E. }
  assert (OY : forall A (k : res A) x, (_ ← assert_one_yocto c; k) = Ok x -> c_deposit c = 1).
  { intros A k x E. apply bind_Ok in E as (u & E & _). apply require_Ok in E. apply N.eqb_eq in E. exact E. }
  assert (NE : forall r x, noeff r = Ok x -> exists t, r = Ok t /\ x = (t, [])).
  { intros r x E. unfold noeff in E. apply bind_Ok in E as (t & E & F). injection F as <-. exists t. split; [exact E|reflexivity]. }
  assert (W : forall s vid l amt x, internal_withdraw c s vid l amt = Ok x -> c_deposit c = 1 /\ near_sent x.2 = 1).
  { intros t vid l amt x E. split; [eapply OY; exact E|]. unfold internal_withdraw in E.
    apply bind_Ok in E as (u1 & _ & E). apply bind_Ok in E as (u2 & _ & E). apply bind_Ok in E as (u3 & _ & E). cbv zeta in E.
    apply bind_Ok in E as (u4 & _ & E). rinv. reflexivity. }
  destruct o; cbn [exec near_due pays_out] in *.
  all: try (apply NE in H as (t & H & [= -> ->]); split; [first [eapply OY; exact H | eapply NP; exact H]|reflexivity]).
  - (* UpdateAirdrop *) apply NE in H as (t & H & [= -> ->]). split; [|reflexivity]. unfold update_airdrop_user_data in H.
    apply bind_Ok in H as (u & E & _). apply require_Ok in E. apply N.eqb_eq in E. exact E.
  - (* ClaimStnear *) split; [eapply NP; exact H|]. apply bind_Ok in H as (u & _ & H). apply bind_Ok in H as (t & _ & H). injection H as _ <-. reflexivity.
  - (* DelegatedClaim *) split; [exact I|]. apply bind_Ok in H as (u & _ & H). apply bind_Ok in H as (t & _ & H). injection H as _ <-. reflexivity.
  - (* Withdraw *) unfold withdraw in H. apply W in H. exact H.
  - (* WithdrawAll *) unfold withdraw_all in H. apply bind_Ok in H as (v & _ & H). apply W in H. exact H.
  - (* AfterMp *) apply NE in H as (t & H & [= -> ->]). split; [|reflexivity]. apply bind_Ok in H as (u & _ & H). eapply NP; exact H.
  - (* AfterSt *) apply NE in H as (t & H & [= -> ->]). split; [|reflexivity]. apply bind_Ok in H as (u & _ & H). eapply NP; exact H.
  - (* FtOnTransfer *) apply bind_Ok in H as ([t n] & H & F). injection F as _ <-. split; [eapply NP; exact H|reflexivity].
Qed.

Lemma run_sum_le3 f g h k s tr :
  (forall s x s' e, exec x.1 s x.2 = Ok (s', e) -> f s x e + g s x e <= h s x e + k s x e) ->
  run_sum f s tr + run_sum g s tr <= run_sum h s tr + run_sum k s tr.
Proof.
  intros H. revert s. induction tr as [|x tr IH]; intros s; [cbn; lia|]. cbn [run_sum].
  destruct (exec x.1 s x.2) as [[s' e]|] eqn:E; [|apply IH]. specialize (H _ _ _ _ E). specialize (IH s'). lia.
Qed.
Lemma c69_history s tr : total_sent s tr + total_fees s tr <= total_attached s tr + stnear_claims s tr.
Proof.
  apply run_sum_le3. intros t x t' e H. apply due_exec in H as [Hd Hs]. rewrite Hs.
  destruct x as [c o]; cbn [fst snd] in *. destruct o; cbn [near_due pays_out] in *; lia.
Qed.

(** mpip *)
Definition is_create (p : pending) : bool := match pd_kind p with KCreate _ => true | _ => false end.
Definition n_creates (l : list pending) : nat := length (List.filter is_create l).
Lemma mcall_near c s o s' out :
  mcall c s o = Ok (s', out) ->
  (c_deposit c <> 0 -> exists ct, o = CreateProposal ct) /\
  (forall ct, o = CreateProposal ct -> m_storage s <= c_deposit c) /\
  (forall to n, out = OPay to n -> o = PayToAccount n to /\ c_signer c = m_admin s) /\
  (forall p, out = OAsk p -> is_create p = true -> exists ct, o = CreateProposal ct).
Proof.
  intros H.
  assert (NP : forall A (k : res A) x, (_ ← non_payable c; k) = Ok x -> c_deposit c = 0).
  { intros A k x E. apply bind_Ok in E as (u & E & _). apply require_Ok in E. apply N.eqb_eq in E. exact E. }
  assert (NC : forall A (k : res A) x, (_ ← non_payable c; k) = Ok x -> c_deposit c <> 0 -> exists ct, o = CreateProposal ct).
  { intros A k x E F. apply NP in E. contradiction. }
  destruct o; cbn [mcall] in H.
  12: { split; [intros _; eexists; reflexivity|]. unfold create_proposal in H. apply bind_Ok in H as (u & _ & H).
        apply bind_Ok in H as (u' & E & H). apply require_Ok in E. apply N.leb_le in E. injection H as <- <-.
        split; [intros ? _; exact E|]. split; [intros ? ? [=]|]. intros ? _ _. eexists; reflexivity. }
  all: (split; [eapply NC; exact H|]); (split; [intros ? [=]|]).
  all: try (match type of H with ?f _ _ _ = _ => unfold f in H end; rinv; split; [intros ? ? [=]|intros ? [=]; subst; intros [=]]; fail).
  - unfold pay_to_account in H. apply bind_Ok in H as (u & _ & H). apply bind_Ok in H as (u' & E & H). apply require_Ok in E.
    injection H as <- <-. split; [|intros ? [=]]. intros ? ? [= <- <-]. split; [reflexivity|]. apply bool_decide_eq_true in E || apply String.eqb_eq in E. congruence.
  - unfold update_proposal in H. rinv. split; [intros ? ? [=]|intros ? [=]].
  - unfold vote_proposal in H. rinv. split; [intros ? ? [=]|intros ? [=]; subst; intros [=]].
  - apply process_inv in H as (-> & _). split; [intros ? ? [=]|intros ? [=]].
Qed.

(** the storage price is at least [K] in every state the history goes through *)
Definition price_at_least (K : N) (w : world) (tr : list mevent) : Prop :=
  forall tr1 tr2, tr = (tr1 ++ tr2)%list -> K <= m_storage (w_m (wrun w tr1)).

Lemma n_creates_app l p : n_creates (l ++ [p]) = (n_creates l + (if is_create p then 1 else 0))%nat.
Proof. unfold n_creates. rewrite List.filter_app, app_length. cbn [List.filter]. destruct (is_create p); reflexivity. Qed.
Lemma n_creates_delete l i p : l !! i = Some p -> n_creates l = (n_creates (delete i l) + (if is_create p then 1 else 0))%nat.
Proof.
  unfold n_creates. revert i. induction l as [|q l IH]; intros [|i] H; try discriminate H.
  - injection H as ->. cbn. destruct (is_create p); cbn; lia.
  - cbn in H. specialize (IH _ H). cbn [delete list_delete List.filter]. change (list_delete i l) with (delete i l) in *.
    destruct (is_create q); cbn [length]; rewrite IH; reflexivity.
Qed.

Lemma near_step w x :
  (n_proposals (w_m (wstep w x)) + n_creates (w_pend (wstep w x)) <= n_proposals (w_m w) + n_creates (w_pend w)) %nat \/
  (n_proposals (w_m (wstep w x)) + n_creates (w_pend (wstep w x)) <= S (n_proposals (w_m w) + n_creates (w_pend w)))%nat /\
   m_storage (w_m w) <= m_attached w x.
Proof.
  destruct x as [c o|i ts a]; cbn [wstep m_attached].
  - destruct (mcall c (w_m w) o) as [[s' out]|] eqn:E; [|left; reflexivity].
    assert (HP : n_proposals s' = n_proposals (w_m w)).
    { apply mcall_props in E as [_ [H|(id & p & p' & Hp & _ & H)]]; unfold n_proposals; rewrite H; [reflexivity|].
      rewrite om_set_length, Hp. reflexivity. }
    apply mcall_near in E as (_ & H2 & _ & H4).
    destruct out as [|p|to n]; cbn [w_m w_pend]; [left; lia| |left; lia].
    rewrite n_creates_app. destruct (is_create p) eqn:Ep; [|left; lia]. right.
    destruct (H4 _ eq_refl Ep) as (ct & ->). specialize (H2 _ eq_refl). split; [lia|exact H2].
  - left. destruct (w_pend w !! i) as [p|] eqn:E; [|reflexivity]. cbn [w_m w_pend].
    rewrite (n_creates_delete _ _ _ E).
    destruct (mcallback _ _ _ _) as [s'|] eqn:F; [|lia].
    destruct p as [sg ctr ask k]; cbn [pd_kind is_create] in *. unfold is_create; cbn [pd_kind]. unfold n_proposals.
    destruct k; cbn [mcallback] in F.
    + unfold start_callback in F. apply bind_Ok in F as (t & _ & F). apply bind_Ok in F as (q & Hq & F). cbv zeta in F.
      apply bind_Ok in F as (e & _ & F). apply bind_Ok in F as (q' & _ & F). injection F as <-. apply get_mpip_Ok in Hq.
      cbn [m_proposals set]. rewrite om_set_length, Hq. lia.
    + unfold create_callback in F. apply bind_Ok in F as (t & _ & F). apply bind_Ok in F as (q & Hq & F). cbv zeta in F. injection F as <-.
      cbn [m_proposals set]. rewrite om_set_length. destruct (om_get _ _); lia.
    + unfold vote_callback in F. apply bind_Ok in F as (t & _ & F). apply bind_Ok in F as (q & Hq & F). cbv zeta in F.
      apply bind_Ok in F as (e & _ & F). injection F as <-. cbn [m_proposals set]. lia.
Qed.

Lemma paid_for K tr : forall w, price_at_least K w tr ->
  K * N.of_nat (n_proposals (w_m (wrun w tr)) + n_creates (w_pend (wrun w tr))) <=
  K * N.of_nat (n_proposals (w_m w) + n_creates (w_pend w)) + wsum m_attached w tr.
Proof.
  induction tr as [|x tr IH]; intros w H; [cbn [wrun fold_left wsum]; lia|].
  cbn [wsum]. change (wrun w (x :: tr)) with (wrun (wstep w x) tr).
  assert (H' : price_at_least K (wstep w x) tr).
  { intros tr1 tr2 ->. apply (H (x :: tr1) tr2). reflexivity. }
  specialize (IH _ H'). pose proof (H [] (x :: tr) eq_refl) as HK. cbn [wrun fold_left] in HK.
  destruct (near_step w x) as [E|[E F]]; nia.
Qed.
Lemma c69_proposals a s0 tr K : mpip_new a = Ok s0 -> price_at_least K (winit s0) tr ->
  K * N.of_nat (n_proposals (w_m (wrun (winit s0) tr))) <= wsum m_attached (winit s0) tr.
Proof.
  intros Ha H. apply paid_for in H.
  assert (E : n_proposals (w_m (winit s0)) = O). { unfold mpip_new in Ha. apply bind_Ok in Ha as (u & _ & Ha). injection Ha as <-. reflexivity. }
  cbn [winit w_m w_pend] in *. rewrite E in H. change (n_creates []) with O in H. lia.
Qed.
