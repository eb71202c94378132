(** WorldSafe.v -- C85: nobody's tokens are lost by anything but the account's own transfers. *)

From Verif Require Export WorldExact.

(** *** Specification *)
(** what the contract's books say the account has *)
Definition credited (k : tk) (s : state) (a : string) : N :=
  match k with
  | Mp => raw_balance s a + positions_amount s a + get_claimable_mpdao s a
  | St => get_claimable_stnear s a
  end.
(** on its way back to the account: withdrawn or claimed and not yet transferred, or the transfer failed and is not yet
    put back *)
Definition returning (k : tk) (a : string) (p : pend) : N :=
  match p with
  | PPay cb _ src rcv n => if decide (cb = k /\ src = a /\ rcv = a) then n else 0
  | PBack cb src n false => if decide (cb = k /\ src = a) then n else 0
  | _ => 0
  end.
Definition owns (k : tk) (w : world) (a : string) : N :=
  ft_balance_of (tok_of w k) a + credited k (w_mv w) a + sum_by (returning k a) (w_pend w).

(** the account spends from its wallet: a call of its own to the token contract; or it gives back some of a transfer_call
    it received *)
Definition spends (k : tk) (a : string) (w : world) (ev : wev) : Prop :=
  match ev with
  | EMv _ => False
  | ETok j x => j = k /\ c_pred x.1 = a
  | ERun i _ _ _ => match w_pend w !! i with Some (PResolve j _ r _ _) => j = k /\ r = a | _ => False end
  end.
(** the callback of a failed transfer to the account fails itself, for instance for lack of gas *)
Definition drops (k : tk) (a : string) (w : world) (ev : wev) : Prop :=
  match ev with
  | ERun i _ true _ => match w_pend w !! i with Some (PBack cb src _ false) => cb = k /\ src = a | _ => False end
  | _ => False
  end.
Fixpoint while (P : world -> wev -> Prop) (w : world) (evs : list wev) : Prop :=
  match evs with [] => True | ev :: evs' => P w ev /\ while P (wstep w ev) evs' end.
(** accounts of the other chain, whose positions the operator mirrors and whose claims their delegate collects *)
Definition is_pseudo (a : string) : Prop := exists ext, a = ext +:+ ".evmp.near".

(** *** Proofs *)
Lemma vchg_uncl c s o s' e vid v v' : vchg c s o s' e vid v v' -> uncl_mp s' + mp_claimed_all s (c, o) e = uncl_mp s.
Proof.
  intros H. unfold mp_claimed_all. cbn [snd].
  destruct H; cbn [snd]; try lia.
  - match goal with H : _ \/ _ |- _ => destruct H as [->| ->] end; lia.
  - match goal with H : _ \/ _ |- _ => destruct H as [(? & ? & ->)| ->] end; lia.
  - match goal with H : _ \/ _ |- _ =>
        destruct H as [(_ & [(? & ? & ? & ->)|[(? & ? & ? & ->)|(? & ? & ->)]])|(? & _ & [(? & ? & ? & ->)|(? & ? & ->)])] end; lia.
Qed.
Definition paid_mp (a : string) (e : list eff) : N := sum_by (fun f => match f with PayMp v n => if decide (v = a) then n else 0 | _ => 0 end) e.
Definition paid_st (a : string) (e : list eff) : N := sum_by (fun f => match f with PaySt _ u r n => if decide (u = a /\ r = a) then n else 0 | _ => 0 end) e.
Lemma credited_mp s a : credited Mp s a = vowe (get_voter s a) + get_claimable_mpdao s a.
Proof. unfold credited. rewrite positions_amount_eq. reflexivity. Qed.
Lemma store_other s s' vid v' a : NoDup (voter_ids s) -> store_voter s s' vid v' -> a <> vid -> get_voter s' a = get_voter s a.
Proof.
  intros Hn [E|(E & _)] Ha; unfold get_voter; rewrite E; [rewrite om_get_set_ne by congruence|rewrite om_get_remove_ne by (try exact Hn; congruence)]; reflexivity.
Qed.
Lemma store_same s s' vid v' : NoDup (voter_ids s) -> store_voter s s' vid v' -> vowe (get_voter s' vid) = vowe v'.
Proof.
  intros Hn [E|(E & Hb & Hl & _)]; unfold get_voter; rewrite E; [rewrite om_get_set_eq; reflexivity|].
  rewrite om_get_remove_eq by exact Hn. unfold vowe. rewrite Hb, Hl. reflexivity.
Qed.
Lemma mp_safe x s s' e a : MB s -> ~ is_pseudo a -> exec x.1 s x.2 = Ok (s', e) -> credited Mp s a <= credited Mp s' a + paid_mp a e.
Proof.
  intros [Hn HC] Ha H. destruct x as [c o]. cbn [fst snd] in H.
  pose proof (claims_step s (c, o) s' e HC H) as (_ & Hm & _ & Hu & _). specialize (Hm a). rewrite !credited_mp.
  apply exec_cases in H as [_ [K|(vid & v' & Hst & Hch)]].
  - destruct K as (E1 & _ & _ & _ & _ & _ & _ & Hk). assert (E0 : mp_claimed a s (c, o) e = 0) by (unfold mp_claimed; cbn [snd]; destruct o; try reflexivity; contradiction Hk).
    unfold get_voter in *. rewrite E1. lia.
  - pose proof (vchg_uncl _ _ _ _ _ _ _ _ Hch) as Eu. pose proof (vchg_owe _ _ _ _ _ _ _ Hch) as Ev.
    destruct (decide (a = vid)) as [->|Hne].
    + rewrite (store_same _ _ _ _ Hn Hst).
      assert (Hcl : mp_claimed vid s (c, o) e <= mp_claimed_all s (c, o) e) by (unfold mp_claimed, mp_claimed_all; cbn [snd]; destruct o; try lia; case_decide; lia).
      assert (Ho : import_out s (c, o) = 0).
      { unfold import_out. cbn [snd]. inversion Hch; subst; try reflexivity; try (exfalso; apply Ha; eexists; reflexivity); intuition (subst; try reflexivity);
          repeat match goal with H : exists _, _ |- _ => destruct H end; intuition (subst; try reflexivity);
          repeat match goal with H : exists _, _ |- _ => destruct H end; subst; reflexivity. }
      assert (Hp : mp_sent e <= paid_mp vid e).
      { inversion Hch; subst; unfold mp_sent, paid_mp; rewrite ?sum_by_cons, ?sum_by_nil; try lia. rewrite decide_True by reflexivity. lia. }
      lia.
    + rewrite (store_other _ _ _ _ _ Hn Hst Hne).
      assert (E0 : mp_claimed a s (c, o) e = 0).
      { unfold mp_claimed. cbn [snd fst]. destruct o; try reflexivity. rewrite decide_False; [reflexivity|]. inversion Hch; subst; try congruence;
          repeat match goal with H : _ \/ _ |- _ => destruct H | H : exists _, _ |- _ => destruct H | H : _ /\ _ |- _ => destruct H end; congruence. }
      lia.
Qed.
Lemma st_src c s o s' e t u r n : exec c s o = Ok (s', e) -> In (PaySt t u r n) e -> u = r \/ is_pseudo u.
Proof.
  intros H Hin. destruct (is_claim_op o) eqn:Eo.
  2:{ destruct (exec_frame _ _ _ _ _ H) as [F _]. destruct (F Eo) as [_ N0]. exfalso. eapply N0. exact Hin. }
  destruct o; try discriminate Eo; cbn [exec] in H.
  - apply noeff_Ok in H as [_ ->]. contradiction Hin.
  - unfold claim_stnear in H. apply bind_Ok in H as (? & _ & H). apply bind_Ok in H as (s1 & Hr & H). injection H as <- <-.
    destruct Hin as [E|[]]. injection E as <- <- <- <-. auto.
  - unfold delegated_claim_stnear, verify_delegate in H. apply bind_Ok in H as (ps & Hv & H). apply bind_Ok in H as (s1 & Hr & H). injection H as <- <-.
    destruct Hin as [E|[]]. injection E as <- <- <- <-. right. apply bind_Ok in Hv as (? & _ & Hv). injection Hv as <-. eexists. reflexivity.
  - destruct ok; [discriminate Eo|]. apply noeff_Ok in H as [_ ->]. contradiction Hin.
  - apply bind_Ok in H as (? & _ & H). destruct x. injection H as _ <-. contradiction Hin.
Qed.
Lemma st_safe x s s' e a : MB s -> ~ is_pseudo a -> exec x.1 s x.2 = Ok (s', e) -> credited St s a <= credited St s' a + paid_st a e.
Proof.
  intros [Hn HC] Ha H. pose proof (claims_step s x s' e HC H) as (_ & _ & Hs & _). specialize (Hs a). unfold credited.
  enough (st_claimed a s x e <= paid_st a e) by lia. unfold st_claimed, paid_st.
  assert (G : forall l, incl l e -> sum_by (fun f => match f with PaySt _ src _ n => if decide (src = a) then n else 0 | _ => 0 end) l
    <= sum_by (fun f => match f with PaySt _ u r n => if decide (u = a /\ r = a) then n else 0 | _ => 0 end) l).
  { induction l as [|f l IH]; intros Hi; [reflexivity|]. rewrite !sum_by_cons. specialize (IH (fun y Hy => Hi y (or_intror Hy))).
    destruct f as [v n|t u r n]; [lia|]. destruct (decide (u = a)) as [->|Hu]; [|lia].
    destruct (st_src _ _ _ _ _ t a r n H (Hi _ (or_introl eq_refl))) as [->|Hp]; [|contradiction]. rewrite decide_True by auto. lia. }
  apply G. apply incl_refl.
Qed.
Lemma pend_returning k s s' x e a : exec x.1 s x.2 = Ok (s', e) ->
  sum_by (returning k a) (map (pend_of s) e) = match k with Mp => paid_mp a e | St => paid_st a e end.
Proof.
  intros _. induction e as [|f e IH]; [destruct k; reflexivity|]. cbn [map]. rewrite sum_by_cons, IH. unfold paid_mp, paid_st. destruct k; rewrite sum_by_cons; f_equal; destruct f as [v n|t u r n]; cbn [pend_of returning];
    repeat case_decide; try reflexivity; exfalso; intuition congruence.
Qed.
Lemma mv_safe k x s s' e a : MB s -> ~ is_pseudo a -> exec x.1 s x.2 = Ok (s', e) ->
  credited k s a <= credited k s' a + sum_by (returning k a) (map (pend_of s) e).
Proof. intros HB Ha H. rewrite (pend_returning k s s' x e a H). destruct k; [eapply mp_safe; eassumption|eapply st_safe; eassumption]. Qed.

Lemma owns_mv k w s' ps a : owns k (w <| w_mv := s' |> <| w_pend := w_pend w ++ ps |>) a
  = ft_balance_of (tok_of w k) a + credited k s' a + sum_by (returning k a) (w_pend w) + sum_by (returning k a) ps.
Proof. unfold owns. cbn [w_pend w_mv set]. rewrite sum_by_app. destruct k; cbn [tok_of w_mp w_st set]; lia. Qed.
Lemma owns_pend k w ps a : owns k (w <| w_pend := w_pend w ++ ps |>) a = owns k w a + sum_by (returning k a) ps.
Proof. unfold owns. cbn [w_pend w_mv set]. rewrite sum_by_app. destruct k; cbn [tok_of w_mp w_st set]; lia. Qed.
Lemma owns_tok k j w t' ps a : owns k (set_tok w j t' <| w_pend := w_pend w ++ ps |>) a
  = (if decide (j = k) then ft_balance_of t' a else ft_balance_of (tok_of w k) a) + credited k (w_mv w) a
    + sum_by (returning k a) (w_pend w) + sum_by (returning k a) ps.
Proof.
  unfold owns. assert (E : w_mv (set_tok w j t' <| w_pend := w_pend w ++ ps |>) = w_mv w) by (destruct j; reflexivity). rewrite E.
  assert (E2 : w_pend (set_tok w j t' <| w_pend := w_pend w ++ ps |>) = w_pend w ++ ps) by reflexivity. rewrite E2, sum_by_app.
  assert (E3 : tok_of (set_tok w j t' <| w_pend := w_pend w ++ ps |>) k = if decide (j = k) then t' else tok_of w k) by (destruct j, k; reflexivity). rewrite E3.
  case_decide; lia.
Qed.

Lemma ev_mv_safe k w x a : WI k w -> ~ is_pseudo a -> owns k w a <= owns k (wstep w (EMv x)) a.
Proof.
  intros HI Ha. cbn [wstep]. destruct (is_contract w (c_pred x.1)); [lia|]. destruct (exec x.1 (w_mv w) x.2) as [[s' e]|] eqn:H; [|lia].
  rewrite owns_mv. pose proof (mv_safe k _ _ _ _ a (wi_mb _ _ HI) Ha H). unfold owns. lia.
Qed.
Lemma ev_tok_safe k w j x a : WI k w -> ~ spends k a w (ETok j x) -> owns k w a <= owns k (wstep w (ETok j x)) a.
Proof.
  intros HI Hs. destruct x as [c o]. cbn [wstep fst snd spends] in *. destruct (is_contract w (c_pred c)) eqn:Hc; [lia|].
  destruct (t_exec c (tok_of w j) o) as [[t' e]|] eqn:H; [|lia]. rewrite owns_tok. destruct (decide (j = k)) as [->|]; [|unfold owns; lia].
  destruct (t_exec_spec (c, o) _ _ _ (TI_of k k w HI) H) as (_ & Hp & _ & Hb & _). specialize (Hb a).
  assert (E : debit (tok_of w k) (c, o) a = 0).
  { unfold debit, t_permitted in *. cbn [fst snd] in *. destruct o; try reflexivity; try (rewrite decide_False by tauto; reflexivity).
    destruct Hp as [Hp _]. exfalso. exact (not_tok _ k _ Hc Hp). }
  unfold owns. lia.
Qed.
(** what must fit for a failed transfer to be put back *)
Definition fits_back (k : tk) (w : world) : Prop := owed k (w_mv w) + out_flight k w < 2 ^ 128.
Lemma back_safe k w i cb src n ok c ans a : WI k w -> ~ is_pseudo a -> fits_back k w -> w_pend w !! i = Some (PBack cb src n ok) ->
  owns k w a <= owns k (wstep w (ERun i c false ans)) a.
Proof.
  intros HI Ha Hf Hp. cbn [wstep]. rewrite Hp. cbn [run_pend]. set (w1 := w <| w_pend := delete i (w_pend w) |>).
  change (w_mv w1) with (w_mv w). pose proof (sum_by_delete (returning k a) _ _ _ Hp) as Hd. pose proof (sum_by_delete (outgoing k) _ _ _ Hp) as Ho.
  set (x := (called_by c (self_id (w_mv w)) 0, match cb with Mp => AfterMp src n ok | St => AfterSt src n ok end)).
  assert (Eo : forall s', owns k (w1 <| w_mv := s' |>) a = ft_balance_of (tok_of w k) a + credited k s' a + sum_by (returning k a) (delete i (w_pend w)))
    by (intros s'; unfold owns; destruct k; reflexivity).
  rewrite Eo. unfold owns. enough (credited k (w_mv w) a + returning k a (PBack cb src n ok) <= credited k (step (w_mv w) x) a) by lia.
  cbn [returning]. destruct ok.
  { unfold step. destruct (exec x.1 (w_mv w) x.2) as [[s' e]|] eqn:H; [|lia]. pose proof (mv_safe k _ _ _ _ a (wi_mb _ _ HI) Ha H) as Hs.
    assert (Ee : e = []) by (unfold x in H; destruct cb; cbn [fst snd exec] in H; apply noeff_Ok in H as [_ ->]; reflexivity). subst e. cbn [map] in Hs. rewrite sum_by_nil in Hs. lia. }
  destruct (decide (cb = k /\ src = a)) as [[-> ->]|Hne].
  2:{ unfold step. destruct (exec x.1 (w_mv w) x.2) as [[s' e]|] eqn:H; [|lia]. pose proof (mv_safe k _ _ _ _ a (wi_mb _ _ HI) Ha H) as Hs.
    assert (Ee : e = []) by (unfold x in H; destruct cb; cbn [fst snd exec] in H; apply noeff_Ok in H as [_ ->]; reflexivity). subst e. cbn [map] in Hs. rewrite sum_by_nil in Hs. lia. }
  cbn [outgoing] in Ho. rewrite decide_True in Ho by reflexivity. unfold fits_back, out_flight in Hf. destruct (N.eq_dec n 0) as [->|Hn].
  { unfold step. destruct (exec x.1 (w_mv w) x.2) as [[s' e]|] eqn:H; [|lia]. pose proof (mv_safe k _ _ _ _ a (wi_mb _ _ HI) Ha H) as Hs.
    assert (Ee : e = []) by (unfold x in H; destruct k; cbn [fst snd exec] in H; apply noeff_Ok in H as [_ ->]; reflexivity). subst e. cbn [map] in Hs. rewrite sum_by_nil in Hs. lia. }
  unfold step. destruct k; cbn [owed] in Hf; unfold x; cbn [fst snd].
  - pose proof (raw_le _ a (proj1 (wi_mb _ _ HI))) as Hr.
    destruct (c07_restore (called_by c (self_id (w_mv w)) 0) (w_mv w) a n eq_refl eq_refl ltac:(lia)) as (s' & Hx & Hb & _ & _ & Hl & _ & _ & Es). rewrite Hx.
    unfold credited. rewrite Hb. assert (E1 : positions_amount s' a = positions_amount (w_mv w) a) by (unfold positions_amount; rewrite Hl; reflexivity).
    assert (E2 : get_claimable_mpdao s' a = get_claimable_mpdao (w_mv w) a) by (rewrite Es; reflexivity). rewrite E1, E2. lia.
  - destruct (wi_mb _ _ HI) as [_ [_ HC]]. change (ci_uncl_st (get_contract_info (w_mv w))) with (uncl_st (w_mv w)) in Hf. change (2 ^ 128) with U128_SIZE in Hf.
    pose proof (add_st_fwd (w_mv w) a n HC ltac:(lia) ltac:(lia)) as Hx. cbn [exec]. unfold after_transfer_stnear_callback, assert_private, non_payable.
    cbn [called_by c_pred c_deposit]. rewrite bool_decide_true by reflexivity. cbn [N.eqb require mbind res_bind]. rewrite Hx. cbn [noeff mbind res_bind].
    unfold credited, get_claimable_stnear. cbn. rewrite om_get_set_eq. cbn. unfold clm. lia.
Qed.
Lemma resolve_safe k w i j sn r n res c fail ans a : WI k w -> w_pend w !! i = Some (PResolve j sn r n res) -> ~ (j = k /\ r = a) ->
  owns k w a <= owns k (wstep w (ERun i c fail ans)) a.
Proof.
  intros HI Hp Hne. cbn [wstep]. rewrite Hp. cbn [run_pend]. set (w1 := w <| w_pend := delete i (w_pend w) |>).
  pose proof (sum_by_delete (returning k a) _ _ _ Hp) as Hd. cbn [returning] in Hd.
  assert (E1 : owns k w1 a = owns k w a) by (unfold owns; destruct k; cbn; lia).
  destruct fail; [lia|]. assert (E2 : tok_of w1 j = tok_of w j) by (destruct j; reflexivity). rewrite E2.
  unfold t_step. cbn [fst snd]. set (c0 := called_by c (t_self (tok_of w j)) 0).
  destruct (t_exec c0 (tok_of w j) (TResolve sn r n res)) as [[t' e]|] eqn:H.
  2:{ rewrite <- E2. replace (set_tok w1 j (tok_of w1 j)) with w1 by (destruct j; reflexivity). lia. }
  destruct (t_exec_spec (c0, TResolve sn r n res) _ _ _ (TI_of k j w HI) H) as (_ & _ & _ & Hb & _). specialize (Hb a).
  assert (E0 : set_tok w1 j t' = set_tok w1 j t' <| w_pend := w_pend w1 ++ [] |>) by (rewrite app_nil_r; destruct j; reflexivity).
  rewrite E0, owns_tok, sum_by_nil. rewrite <- E1. unfold owns. destruct (decide (j = k)) as [->|]; [|lia].
  unfold debit in Hb. cbn [fst snd] in Hb. rewrite decide_False in Hb by tauto. rewrite E2. lia.
Qed.
Lemma pay_safe k w i cb tok src rcv n c fail ans a : WI k w -> a <> self_id (w_mv w) -> w_pend w !! i = Some (PPay cb tok src rcv n) ->
  owns k w a <= owns k (wstep w (ERun i c fail ans)) a.
Proof.
  intros HI Ha Hp. pose proof (pok_at _ _ _ _ HI Hp) as (P1 & _ & P3). destruct (wi_ids _ _ HI) as (_ & _ & _ & I4).
  cbn [wstep]. rewrite Hp. cbn [run_pend]. set (w1 := w <| w_pend := delete i (w_pend w) |>).
  change (w_mv w1) with (w_mv w). change (w_mp w1) with (w_mp w). change (w_st w1) with (w_st w).
  pose proof (sum_by_delete (returning k a) _ _ _ Hp) as Hd.
  assert (E1 : owns k w1 a + returning k a (PPay cb tok src rcv n) = owns k w a) by (unfold owns; destruct k; cbn [w_pend w1 set w_mv tok_of w_mp w_st] in *; lia).
  assert (E2 : forall j, tok_of w1 j = tok_of w j) by (intros []; reflexivity).
  assert (Hno : owns k w a <= owns k (w1 <| w_pend := w_pend w1 ++ [PBack cb src n false] |>) a).
  { rewrite owns_pend, sum_by_cons, sum_by_nil. cbn [returning] in *. repeat case_decide; try lia; exfalso; tauto. }
  set (jj := if bool_decide (tok = t_self (w_mp w)) then Some Mp else if bool_decide (tok = t_self (w_st w)) then Some St else None).
  assert (Hj : match jj with Some j => tok = t_self (tok_of w j) | None => cb <> k end).
  { unfold jj. case_bool_decide as H1; [assumption|]. case_bool_decide as H2; [assumption|]. intros ->. assert (tok = t_self (tok_of w k)) by (apply P3; reflexivity). destruct k; cbn in *; congruence. }
  destruct jj as [j|].
  2:{ rewrite owns_pend, sum_by_cons, sum_by_nil. cbn [returning] in *. rewrite decide_False in E1 by tauto. lia. }
  destruct fail; [exact Hno|]. rewrite E2. set (c0 := called_by c (self_id (w_mv w)) 1).
  destruct (t_exec c0 (tok_of w j) (TTransfer rcv n)) as [[t' e]|] eqn:H; [|exact Hno]. clear Hno.
  destruct (t_exec_spec (c0, TTransfer rcv n) _ _ _ (TI_of k j w HI) H) as (_ & _ & _ & Hb & _). specialize (Hb a).
  unfold debit, credit, c0 in Hb. cbn [fst snd called_by c_pred] in Hb. rewrite decide_False in Hb by congruence.
  rewrite owns_tok, sum_by_cons, sum_by_nil, <- E1. unfold owns. cbn [returning]. rewrite E2. destruct (decide (j = k)) as [->|Hjk].
  - repeat case_decide; try lia; exfalso; tauto.
  - rewrite decide_False; [lia|]. intros [-> _]. apply Hjk. assert (tok = t_self (tok_of w k)) by (apply P3; reflexivity). destruct j, k; cbn in *; congruence.
Qed.
Lemma deliver_safe k w i j sn r n msg c fail ans a : WI k w -> ~ is_pseudo a -> w_pend w !! i = Some (PDeliver j sn r n msg) ->
  owns k w a <= owns k (wstep w (ERun i c fail ans)) a.
Proof.
  intros HI Ha Hp. cbn [wstep]. rewrite Hp. cbn [run_pend]. set (w1 := w <| w_pend := delete i (w_pend w) |>). change (w_mv w1) with (w_mv w).
  pose proof (sum_by_delete (returning k a) _ _ _ Hp) as Hd. cbn [returning] in Hd.
  assert (E1 : owns k w1 a = owns k w a) by (unfold owns; destruct k; cbn [w_pend w1 set w_mv tok_of w_mp w_st]; lia).
  assert (Hany : forall res, owns k w a <= owns k (w1 <| w_pend := w_pend w1 ++ [PResolve j sn r n res] |>) a)
    by (intros res; rewrite owns_pend, sum_by_cons, sum_by_nil; lia).
  case_bool_decide; [|apply Hany]. destruct fail; [apply Hany|]. assert (E2 : tok_of w1 j = tok_of w j) by (destruct j; reflexivity). rewrite E2.
  destruct (ft_on_transfer _ _ _ _ _) as [[s' u]|] eqn:Hf; [|apply Hany]. pose proof (c37_consumed _ _ _ _ _ _ _ Hf) as ->.
  set (c0 := called_by c (t_self (tok_of w j)) 0) in *.
  assert (Hx : exec c0 (w_mv w) (FtOnTransfer sn n msg) = Ok (s', [])) by (cbn [exec]; rewrite Hf; reflexivity).
  pose proof (mv_safe k (c0, FtOnTransfer sn n msg) _ _ _ a (wi_mb _ _ HI) Ha Hx) as Hs. cbn [map] in Hs. rewrite sum_by_nil in Hs.
  rewrite owns_mv, sum_by_cons, sum_by_nil, <- E1. unfold owns. cbn [returning]. change (w_mv w1) with (w_mv w). lia.
Qed.
Lemma wstep_safe k w ev a : WI k w -> a <> self_id (w_mv w) -> ~ is_pseudo a -> fits_back k w -> ~ spends k a w ev -> ~ drops k a w ev ->
  owns k w a <= owns k (wstep w ev) a.
Proof.
  intros HI Hm Ha Hf Hs Hd. destruct ev as [x|j x|i c fail ans].
  - apply ev_mv_safe; assumption.
  - apply ev_tok_safe; assumption.
  - destruct (w_pend w !! i) as [p|] eqn:Hp; [|cbn [wstep]; rewrite Hp; lia]. cbn [spends drops] in Hs, Hd. rewrite Hp in Hs, Hd.
    destruct p as [j sn r n msg|j sn r n res|cb tok src rcv n|cb src n ok].
    + eapply deliver_safe; eassumption.
    + eapply resolve_safe; eassumption.
    + eapply pay_safe; eassumption.
    + destruct fail; [|eapply back_safe; eassumption]. cbn [wstep]. rewrite Hp. cbn [run_pend].
      pose proof (sum_by_delete (returning k a) _ _ _ Hp) as E. cbn [returning] in E. unfold owns. 
      assert (E0 : match ok with true => 0 | false => if decide (cb = k /\ src = a) then n else 0 end = 0) by (destruct ok; [reflexivity|]; rewrite decide_False by tauto; reflexivity).
      rewrite E0 in E. destruct k; cbn [w_pend set w_mv tok_of w_mp w_st]; lia.
Qed.

Definition untouched (k : tk) (a : string) (w : world) (ev : wev) : Prop := ~ spends k a w ev /\ ~ drops k a w ev.
Lemma while_app P evs : forall w evs', while P w (evs ++ evs') <-> while P w evs /\ while P (wrun w evs) evs'.
Proof. induction evs as [|ev evs IH]; intros w evs'; [cbn; tauto|]. cbn [while app]. rewrite IH. cbn [wrun fold_left]. tauto. Qed.
Lemma fits_ready k w : wready k w -> fits_back k w.
Proof.
  intros [HI Hl]. rewrite load_eq in Hl. pose proof (bal_le _ (self_id (w_mv w)) (TI_of k k w HI)) as Hb. destruct (TI_of k k w HI) as (_ & _ & Hs).
  unfold fits_back, funds in *. change (2 ^ 128) with U128_SIZE. lia.
Qed.
Lemma c85_kept k w0 evs evs2 a : wstart w0 -> Forall (calm k w0) (evs ++ evs2) -> a <> self_id (w_mv w0) -> ~ is_pseudo a ->
  while (untouched k a) (wrun w0 evs) evs2 -> owns k (wrun w0 evs) a <= owns k (wrun w0 (evs ++ evs2)) a.
Proof.
  intros Hs Hg Hm Ha. induction evs2 as [|ev evs2 IH] using rev_ind; intros Hw; [rewrite app_nil_r; reflexivity|].
  rewrite app_assoc in Hg |- *. apply Forall_app in Hg as [Hg _]. apply while_app in Hw as [Hw [Hu _]]. specialize (IH Hg Hw).
  rewrite wrun_snoc. etransitivity; [exact IH|]. pose proof (w_ready k w0 _ Hs Hg) as HR.
  assert (Ew : wrun (wrun w0 evs) evs2 = wrun w0 (evs ++ evs2)) by (unfold wrun; rewrite fold_left_app; reflexivity). rewrite Ew in Hu.
  pose proof (self_kept k w0 _ Hs Hg) as Ec. destruct Hu. apply wstep_safe; [apply HR| |exact Ha|apply fits_ready; exact HR|assumption|assumption].
  unfold wconst in Ec. congruence.
Qed.
(** with imports *)
Lemma c85_imports w0 evs evs2 a : wstart w0 -> Forall (not_mpdao w0) (evs ++ evs2) -> a <> self_id (w_mv w0) -> ~ is_pseudo a ->
  while (fun w ev => untouched Mp a w ev /\ mp_owed (w_mv w) + out_flight Mp w < 2 ^ 128) (wrun w0 evs) evs2 ->
  owns Mp (wrun w0 evs) a <= owns Mp (wrun w0 (evs ++ evs2)) a.
Proof.
  intros Hs Hg Hm Ha. induction evs2 as [|ev evs2 IH] using rev_ind; intros Hw; [rewrite app_nil_r; reflexivity|].
  rewrite app_assoc in Hg |- *. apply Forall_app in Hg as [Hg _]. apply while_app in Hw as [Hw [[Hu Hf] _]]. specialize (IH Hg Hw).
  rewrite wrun_snoc. etransitivity; [exact IH|].
  assert (Ew : wrun (wrun w0 evs) evs2 = wrun w0 (evs ++ evs2)) by (unfold wrun; rewrite fold_left_app; reflexivity). rewrite Ew in Hu, Hf.
  destruct (wstart_WI Mp _ Hs) as [HI _]. destruct (wrun_move Mp (evs ++ evs2) w0 HI) as (H1 & Ec & _).
  { eapply List.Forall_impl; [|exact Hg]. intros e He. destruct e as [[c o]| |]; try exact I. destruct o; try exact I. cbn in He |- *. split; [contradiction|discriminate]. }
  destruct Hu. apply wstep_safe; [exact H1| |exact Ha|exact Hf|assumption|assumption]. unfold wconst in Ec. congruence.
Qed.
