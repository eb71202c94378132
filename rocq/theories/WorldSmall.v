(** WorldSmall.v -- C77 in the world with tokens: no call ever fails because a number is too big. *)

From Verif Require Export WorldHeard WorldProofs MVSmall2.

Lemma heard_step w ev : w_mv (wstep w ev) = run (w_mv w) (heard_at w ev).
Proof.
  destruct ev as [x|k x|i c fail ans]; cbn [wstep heard_at].
  - destruct (is_contract w (c_pred x.1)); [reflexivity|]. cbn [run fold_left]. unfold step.
    destruct (exec x.1 (w_mv w) x.2) as [[s' e]|m]; reflexivity.
  - destruct (is_contract w (c_pred x.1)); [reflexivity|]. destruct (t_exec x.1 (tok_of w k) x.2) as [[t' e]|m]; [|reflexivity].
    destruct k; reflexivity.
  - destruct (w_pend w !! i) as [p|]; [|reflexivity]. set (w1 := w <| w_pend := delete i (w_pend w) |>).
    assert (E1 : w_mv w1 = w_mv w) by reflexivity. assert (E2 : forall k, tok_of w1 k = tok_of w k) by (intros []; reflexivity).
    assert (Et : forall k t, w_mv (set_tok w1 k t) = w_mv w) by (intros [] t; reflexivity).
    destruct p as [k sender receiver amount msg|k sender receiver amount result|cb token source receiver amount|cb source amount ok];
      cbn [run_pend]; rewrite ?E1, ?E2.
    + destruct (bool_decide (receiver = self_id (w_mv w))); [|reflexivity]. destruct fail; [reflexivity|]. cbn [andb negb run fold_left].
      unfold step. cbn [fst snd exec].
      destruct (ft_on_transfer (called_by c (t_self (tok_of w k)) 0) (w_mv w) sender amount msg) as [[s' u]|m]; reflexivity.
    + destruct fail; [reflexivity|]. apply Et.
    + destruct (bool_decide (token = t_self (w_mp w1))).
      { destruct fail; [reflexivity|]. destruct (t_exec _ _ _) as [[t' e]|m]; reflexivity. }
      destruct (bool_decide (token = t_self (w_st w1))); [|reflexivity].
      destruct fail; [reflexivity|]. destruct (t_exec _ _ _) as [[t' e]|m]; reflexivity.
    + destruct fail; reflexivity.
Qed.
Lemma heard_run evs : forall w, w_mv (wrun w evs) = run (w_mv w) (heard w evs).
Proof.
  induction evs as [|ev evs IH]; intros w; [reflexivity|]. cbn [wrun fold_left heard]. fold (wrun (wstep w ev) evs).
  rewrite IH, heard_step, run_app. reflexivity.
Qed.
Lemma heard_app evs1 evs2 : forall w, heard w (evs1 ++ evs2) = heard w evs1 ++ heard (wrun w evs1) evs2.
Proof. induction evs1 as [|ev evs IH]; intros w; [reflexivity|]. cbn [app heard]. rewrite IH, app_assoc. reflexivity. Qed.
Lemma heard_len evs : forall w, (length (heard w evs) <= length evs)%nat.
Proof.
  induction evs as [|ev evs IH]; intros w; [apply le_n|]. cbn [heard length]. rewrite app_length. specialize (IH (wstep w ev)).
  assert (length (heard_at w ev) <= 1)%nat; [|lia]. destruct ev as [x|k x|i c fail ans]; cbn [heard_at]; [|cbn; lia|].
  - destruct (is_contract _ _); cbn; lia.
  - destruct (w_pend w !! i) as [p|]; [|cbn; lia]. destruct p; try (cbn; lia); [destruct (_ && _)|destruct fail]; cbn; lia.
Qed.

(** what the call brings is in flight *)
Lemma heard_bounds w ev x : WI Mp w -> WI St w -> load Mp w <= funds Mp w -> load St w <= funds St w -> heard_at w ev = [x] ->
  u128 (l_mp_ever (observe (w_mv w)) + t_supply (w_mp w)) -> u128 (l_st_ever (observe (w_mv w)) + t_supply (w_st w)) ->
  enabled x.1 (observe (w_mv w)) x.2 ->
  mp_owed (w_mv w) + mp_received (w_mv w) x <= t_supply (w_mp w) /\ spare x.1 (observe (w_mv w)) x.2.
Proof.
  intros HM HS LM LS Hx E1 E2 He.
  pose proof (bal_le _ (self_id (w_mv w)) (wi_mp _ _ HM)) as BM. pose proof (bal_le _ (self_id (w_mv w)) (wi_st _ _ HS)) as BS.
  unfold funds in LM, LS. cbn [tok_of] in LM, LS.
  assert (OM : mp_owed (w_mv w) <= load Mp w) by (unfold load; cbn [owed]; lia).
  destruct (wi_ids _ _ HM) as (I1 & I2 & I3 & I4). pose proof (proj2 (wi_stnear _ _ HS) eq_refl) as I5. cbn [tok_of] in I5.
  destruct ev as [y|k y|i c fail ans]; cbn [heard_at] in Hx; [|discriminate|].
  - destruct (is_contract w (c_pred y.1)) eqn:Ec; [discriminate|]. injection Hx as <-. apply not_contract in Ec as (C1 & C2 & C3).
    destruct y as [c o]. cbn [fst snd] in *.
    assert (Ho : match o with FtOnTransfer _ _ _ | AfterMp _ _ _ | AfterSt _ _ _ => False | _ => True end).
    { destruct o; try exact I; cbn [enabled] in He; cbv zeta in He.
      - destruct He as [_ He]. apply C1. exact He.
      - destruct He as (_ & He & _). apply C1. exact He.
      - destruct He as (_ & _ & He). change (l_mpdao (observe (w_mv w))) with (mpdao_addr (w_mv w)) in He.
        change (l_stnear (observe (w_mv w))) with (stnear_addr (w_mv w)) in He. rewrite I1, I5 in He.
        destruct (after_prefix "for-claims:" msg); [|destruct He as [He _]; apply C2; exact He].
        destruct He as (l & _ & _ & [[He _]|(_ & He & _)]); [apply C2; exact He|apply C3; exact He]. }
    destruct o; try contradiction Ho; unfold mp_received, spare; cbn [snd]; (split; [lia|exact I]).
  - destruct (w_pend w !! i) as [p|] eqn:Ep; [|discriminate].
    pose proof (flow_le Mp w i p Ep) as FM. pose proof (flow_le St w i p Ep) as FS.
    destruct p as [k sender receiver amount msg|k sender receiver amount result|cb token source receiver amount|cb source amount ok]; try discriminate.
    + destruct (bool_decide (receiver = self_id (w_mv w)) && negb fail) eqn:Eb; [|discriminate]. injection Hx as <-.
      apply andb_prop in Eb as [Eb _]. apply bool_decide_eq_true in Eb. subst receiver.
      unfold flow, outgoing, incoming in FM, FS. cbn [owed] in FM, FS. unfold mp_received, spare. cbn [fst snd called_by c_pred].
      change (l_mpdao (observe (w_mv w))) with (mpdao_addr (w_mv w)). rewrite I1.
      assert (OS : uncl_st (w_mv w) <= load St w) by (unfold load; cbn [owed]; cbn; lia).
      change (ci_uncl_st (get_contract_info (w_mv w))) with (uncl_st (w_mv w)) in FS.
      change (l_st_total (observe (w_mv w))) with (uncl_st (w_mv w)). unfold u128 in *.
      destruct k; cbn [tok_of].
      * rewrite decide_True in FM by auto. rewrite (decide_True (P := t_self (w_mp w) = t_self (w_mp w))) by reflexivity.
        split; [lia|]. destruct (after_prefix "for-claims:" msg); [|exact I]. rewrite decide_True by reflexivity. lia.
      * rewrite decide_True in FS by auto. rewrite decide_False by congruence.
        split; [lia|]. destruct (after_prefix "for-claims:" msg); [|exact I]. rewrite decide_False by congruence. lia.
    + destruct fail; [discriminate|]. injection Hx as <-. unfold flow, outgoing, incoming in FM, FS. cbn [owed] in FM, FS.
      change (ci_uncl_st (get_contract_info (w_mv w))) with (uncl_st (w_mv w)) in FS.
      assert (OS : uncl_st (w_mv w) <= load St w) by (unfold load; cbn [owed]; cbn; lia).
      unfold mp_received, spare. cbn [fst snd]. destruct cb, ok; try (split; [lia|exact I]).
      * rewrite decide_True in FM by reflexivity. split; [lia|exact I].
      * rewrite decide_True in FS by reflexivity. split; [lia|]. change (l_st_total (observe (w_mv w))) with (uncl_st (w_mv w)). unfold u128 in *. lia.
Qed.

Lemma of_nat_le (m n : nat) : (m <= n)%nat -> N.of_nat m <= N.of_nat n.
Proof. lia. Qed.

Lemma c77_world w0 evs ev x :
  wstart w0 -> Forall (fun ev => calm Mp w0 ev /\ calm St w0 ev) evs -> N.of_nat (length evs) < 2 ^ 64 ->
  let w := wrun w0 evs in
  let L := observe (w_mv w) in
  heard_at w ev = [x] -> imports x = false -> named_once x.2 ->
  collision_free (heard w0 (evs ++ [ev])) -> no_zero_votes (heard w0 (evs ++ [ev])) ->
  60 * 10 ^ 18 * t_supply (w_mp w) < 2 ^ 128 ->
  l_mp_ever L + t_supply (w_mp w) < 2 ^ 128 -> l_st_ever L + t_supply (w_st w) < 2 ^ 128 ->
  (exists s' e, exec x.1 (w_mv w) x.2 = Ok (s', e)) <-> enabled x.1 L x.2.
Proof.
  intros Hs Hc Hn w L Hx Hi Hno Hcf Hnz H1 H2 H3.
  assert (CM : Forall (calm Mp w0) evs) by (eapply List.Forall_impl; [|exact Hc]; intros e He; apply He).
  assert (CS : Forall (calm St w0) evs) by (eapply List.Forall_impl; [|exact Hc]; intros e He; apply He).
  destruct (w_ready Mp w0 evs Hs CM) as [WM LM]. destruct (w_ready St w0 evs Hs CS) as [WS LS].
  pose proof Hs as (a & _ & _ & _ & _ & _ & _ & Ha & _).
  assert (Eh : heard w0 (evs ++ [ev]) = heard w0 evs ++ [(x.1, x.2)]).
  { rewrite heard_app. f_equal. cbn [heard]. rewrite app_nil_r. fold w. rewrite Hx. destruct x; reflexivity. }
  rewrite Eh in Hcf, Hnz. assert (Ew : w_mv w = run (w_mv w0) (heard w0 evs)) by apply heard_run.
  pose proof (heard_len evs w0) as Hl.
  assert (E76 := c76 a (w_mv w0) (heard w0 evs) x.1 x.2 Ha Hcf Hnz Hno). cbv zeta in E76. rewrite <- Ew in E76.
  split; [intros He; apply E76 in He; apply He|]. intros He.
  destruct (heard_bounds w ev x WM WS LM LS Hx H2 H3 He) as [Hb Hr].
  pose proof (c77 a (w_mv w0) (heard w0 evs) x.1 x.2 Ha Hcf Hnz Hno) as H. cbv zeta in H. rewrite <- Ew in H.
  apply H; [eapply N.le_lt_trans; [|exact Hn]; apply of_nat_le; exact Hl|destruct x; exact Hi| |exact Hr|exact He].
  eapply N.le_lt_trans; [|exact H1]. apply N.mul_le_mono_l. destruct x; exact Hb.
Qed.
