(** WorldProofs.v -- C06, C56: solvency. *)

From Verif Require Export WorldSpec MVMoney.

(** ** meta-vote, one call *)
Definition sent (k : tk) (e : list eff) : N := match k with Mp => mp_sent e | St => st_sent e end.
Definition received (k : tk) (s : state) (x : call) : N := match k with Mp => mp_received s x | St => st_received s x end.
Definition imp (k : tk) (x : call) : N := match k with Mp => import_in x | St => 0 end.

Definition MB (s : state) : Prop := NoDup (voter_ids s) /\ CIs s.

Lemma mv_step k x s s' e : MB s -> exec x.1 s x.2 = Ok (s', e) ->
  MB s' /\ owed k s' + sent k e <= owed k s + received k s x + imp k x.
Proof.
  intros [Hn HC] H. destruct (c05_general _ _ _ _ Hn H) as [Hn' Hm].
  pose proof (claims_step _ _ _ _ HC H) as [HC' _]. pose proof (c05_st _ _ _ _ HC H) as Hs.
  split; [split; assumption|]. destruct k; unfold owed, sent, received, imp; lia.
Qed.

Lemma exec_effs c s o s' e f : exec c s o = Ok (s', e) -> In f e ->
  match f with
  | PayMp v n => v = c_pred c /\ 0 < n
  | PaySt t _ r _ => t = stnear_addr s /\ r = c_pred c
  end.
Proof.
  intros H Hin. destruct f as [v n|t u r n].
  - apply exec_cases in H as [_ [K|(vid & v' & _ & Hch)]].
    + destruct K as (_ & _ & _ & _ & _ & Hp & _). exfalso. eapply Hp. exact Hin.
    + inversion Hch; subst; try contradiction Hin. destruct Hin as [E|[]]. injection E as <- <-. auto.
  - destruct (is_claim_op o) eqn:Eo.
    2:{ destruct (exec_frame _ _ _ _ _ H) as [F _]. destruct (F Eo) as [_ N0]. exfalso. eapply N0. exact Hin. }
    destruct o; try discriminate Eo; cbn [exec] in H.
    + apply noeff_Ok in H as [_ ->]. contradiction Hin.
    + unfold claim_stnear in H. apply bind_Ok in H as (? & _ & H). apply bind_Ok in H as (s1 & Hr & H). injection H as <- <-.
      apply remove_claimable_stnear_inv in Hr as (_ & _ & Es). assert (stnear_addr s1 = stnear_addr s) by (rewrite Es; reflexivity).
      destruct Hin as [E|[]]. injection E as <- <- <- <-. auto.
    + unfold delegated_claim_stnear in H. apply bind_Ok in H as (? & _ & H). apply bind_Ok in H as (s1 & Hr & H). injection H as <- <-.
      apply remove_claimable_stnear_inv in Hr as (_ & _ & Es). assert (stnear_addr s1 = stnear_addr s) by (rewrite Es; reflexivity).
      destruct Hin as [E|[]]. injection E as <- <- <- <-. auto.
    + destruct ok; [discriminate Eo|]. apply noeff_Ok in H as [_ ->]. contradiction Hin.
    + apply bind_Ok in H as (? & _ & H). destruct x. injection H as _ <-. contradiction Hin.
Qed.

(** ** The invariant *)
Definition wconst (w : world) := (self_id (w_mv w), mpdao_addr (w_mv w), t_self (w_mp w), t_self (w_st w)).
Definition ids (w : world) : Prop :=
  mpdao_addr (w_mv w) = t_self (w_mp w) /\ self_id (w_mv w) <> t_self (w_mp w) /\
  self_id (w_mv w) <> t_self (w_st w) /\ t_self (w_mp w) <> t_self (w_st w).
(** a pending transfer of meta-vote; [mv]: its account, [mp], [tk]: the mpDAO token and token [k] *)
Definition pok (mv mp tok : string) (k : tk) (p : pend) : Prop :=
  match p with
  | PPay cb t src rcv n => rcv <> mv /\ (cb = Mp -> t = mp /\ src = rcv /\ 0 < n) /\ (t = tok <-> cb = k)
  | _ => True
  end.
Definition poks (k : tk) (w : world) : list pend -> Prop :=
  Forall (pok (self_id (w_mv w)) (t_self (w_mp w)) (t_self (tok_of w k)) k).
Record WI (k : tk) (w : world) : Prop := {
  wi_mb : MB (w_mv w);
  wi_mp : TI (w_mp w);
  wi_st : TI (w_st w);
  wi_ids : ids w;
  wi_ok : poks k w (w_pend w);
  wi_stnear : stnear_addr (w_mv w) = t_self (tok_of w k) <-> k = St;
}.
Definition flow (mv : string) (k : tk) (p : pend) : N := outgoing k p + incoming mv k p.
Definition load (k : tk) (w : world) : N := owed k (w_mv w) + sum_by (flow (self_id (w_mv w)) k) (w_pend w).
Lemma load_eq k w : load k w = owed k (w_mv w) + out_flight k w + in_flight k w.
Proof. unfold load, flow, out_flight, in_flight. rewrite sum_by_add. lia. Qed.

(** what an event does: [d] is what it adds to the deficit *)
Definition wmove (k : tk) (w w' : world) (d : N) : Prop :=
  WI k w' /\ wconst w' = wconst w /\ load k w' + funds k w <= load k w + funds k w' + d.

Lemma consts_of s s' : consts s' = consts s -> self_id s' = self_id s /\ mpdao_addr s' = mpdao_addr s.
Proof. unfold consts. intros H. split; congruence. Qed.

(** pending receipts are added *)
Lemma move_pend k w ps d : WI k w -> poks k w ps -> sum_by (flow (self_id (w_mv w)) k) ps <= d ->
  wmove k w (w <| w_pend := w_pend w ++ ps |>) d.
Proof.
  intros [H1 H2 H3 H4 H5 H6] Hp Hd. split; [|split; [reflexivity|]].
  - split; try assumption. cbn. apply Forall_app. split; assumption.
  - unfold load, funds, tok_of. cbn. rewrite sum_by_app. lia.
Qed.
(** meta-vote changes and receipts are added *)
Lemma move_mv k w s' ps d d0 :
  WI k w -> MB s' -> consts s' = consts (w_mv w) -> (stnear_addr s' = t_self (tok_of w k) <-> k = St) ->
  poks k w ps -> owed k s' + sum_by (flow (self_id (w_mv w)) k) ps <= owed k (w_mv w) + d0 -> d0 <= d ->
  wmove k w (w <| w_mv := s' |> <| w_pend := w_pend w ++ ps |>) d.
Proof.
  intros [H1 H2 H3 H4 H5 H6] HB Hc Hst Hp Ho Hd. apply consts_of in Hc as [Hc1 Hc2]. split; [|split].
  - split; try assumption.
    + unfold ids in *. cbn. rewrite Hc1, Hc2. exact H4.
    + unfold poks in *. cbn. rewrite Hc1. apply Forall_app. split; assumption.
  - unfold wconst. cbn. rewrite Hc1, Hc2. reflexivity.
  - unfold load, funds, tok_of. cbn. rewrite Hc1, sum_by_app. lia.
Qed.
(** a token ledger changes and receipts are added *)
Lemma tok_set_self w k k' t' : t_self t' = t_self (tok_of w k') -> t_self (tok_of (set_tok w k' t') k) = t_self (tok_of w k).
Proof. destruct k, k'; cbn; congruence. Qed.
Lemma move_tok k k' w t' ps d :
  WI k w -> TI t' -> t_self t' = t_self (tok_of w k') -> poks k w ps ->
  sum_by (flow (self_id (w_mv w)) k) ps + (if decide (k' = k) then ft_balance_of (tok_of w k) (self_id (w_mv w)) else 0)
    <= (if decide (k' = k) then ft_balance_of t' (self_id (w_mv w)) else 0) + d ->
  wmove k w (set_tok w k' t' <| w_pend := w_pend w ++ ps |>) d.
Proof.
  intros [H1 H2 H3 H4 H5 H6] HT Hs Hp Ho. 
  set (w' := set_tok w k' t' <| w_pend := w_pend w ++ ps |>).
  assert (Emv : w_mv w' = w_mv w) by (destruct k'; reflexivity).
  assert (Epe : w_pend w' = w_pend w ++ ps) by (destruct k'; reflexivity).
  assert (Es : forall j, t_self (tok_of w' j) = t_self (tok_of w j)) by (intros j; destruct k', j; cbn in *; congruence).
  assert (Ef : funds k w' = if decide (k' = k) then ft_balance_of t' (self_id (w_mv w)) else funds k w).
  { unfold funds. rewrite Emv. case_decide as E; [subst; destruct k; reflexivity|]. destruct k, k'; try congruence; reflexivity. }
  pose proof (Es Mp) as Es1. pose proof (Es St) as Es2. cbn [tok_of] in Es1, Es2.
  split; [|split].
  - split.
    + rewrite Emv. exact H1.
    + destruct k'; assumption.
    + destruct k'; assumption.
    + unfold ids in *. rewrite Emv, Es1, Es2. exact H4.
    + unfold poks in *. rewrite Emv, Epe, Es1, Es. apply Forall_app. split; assumption.
    + rewrite Emv, Es. exact H6.
  - unfold wconst. rewrite Emv, Es1, Es2. reflexivity.
  - rewrite Ef. unfold load. rewrite Emv, Epe, sum_by_app. unfold funds in *. case_decide; lia.
Qed.
Lemma move_refl k w d : WI k w -> wmove k w w d.
Proof. intros H. split; [exact H|]. split; [reflexivity|lia]. Qed.
(** the receipt taken off the list *)
Lemma move_take k w w' i p d :
  WI k w -> w_pend w !! i = Some p ->
  (WI k (w <| w_pend := delete i (w_pend w) |>) -> pok (self_id (w_mv w)) (t_self (w_mp w)) (t_self (tok_of w k)) k p ->
   wmove k (w <| w_pend := delete i (w_pend w) |>) w' (d + flow (self_id (w_mv w)) k p)) ->
  wmove k w w' d.
Proof.
  intros HI Hp H. pose proof HI as [H1 H2 H3 H4 H5 H6].
  assert (HI0 : WI k (w <| w_pend := delete i (w_pend w) |>)).
  { split; try assumption. cbn. unfold poks in *. cbn. apply List.Forall_forall. intros q Hq.
    rewrite List.Forall_forall in H5. apply H5. apply elem_of_list_In. apply elem_of_list_In in Hq.
    eapply (elem_of_submseteq (delete i (w_pend w))); [exact Hq|]. apply sublist_submseteq, sublist_delete. }
  destruct H as (W1 & W2 & W3); [exact HI0| |].
  { unfold poks in H5. rewrite Forall_forall in H5. apply H5. eapply elem_of_list_lookup_2. exact Hp. }
  split; [exact W1|]. split; [exact W2|].
  pose proof (sum_by_delete (flow (self_id (w_mv w)) k) _ _ _ Hp) as Hd.
  assert (E1 : load k (w <| w_pend := delete i (w_pend w) |>) + flow (self_id (w_mv w)) k p = load k w) by (unfold load; cbn; lia).
  assert (E2 : funds k (w <| w_pend := delete i (w_pend w) |>) = funds k w) by (destruct k; reflexivity).
  lia.
Qed.

(** ** Events *)
Definition good_op (k : tk) (T : string) (o : op) : Prop :=
  match o with SetStnear a => a = T <-> k = St | _ => True end.
Definition good (k : tk) (T : string) (ev : wev) : Prop :=
  match ev with EMv x => good_op k T x.2 | _ => True end.
Lemma stnear_kept c s o s' e k T : exec c s o = Ok (s', e) -> good_op k T o ->
  (stnear_addr s = T <-> k = St) -> (stnear_addr s' = T <-> k = St).
Proof.
  intros H Hg Hs. destruct (is_cfg_op o) eqn:Eo.
  - pose proof (setters_exact _ _ _ _ _ H) as Hx. destruct o; try discriminate Eo; try (rewrite Hx; exact Hs).
    + rewrite Hx. exact Hg.
    + cbn [exec] in H. apply noeff_Ok in H as [H _]. unfold set_lock_in_vote_filters in H. rinv. exact Hs.
  - apply exec_cfg in H; [|exact Eo]. unfold cfg in H. assert (stnear_addr s' = stnear_addr s) as -> by congruence. exact Hs.
Qed.
Lemma not_contract w a : is_contract w a = false ->
  a <> self_id (w_mv w) /\ a <> t_self (w_mp w) /\ a <> t_self (w_st w).
Proof.
  unfold is_contract. intros H. apply orb_false_iff in H as [H H3]. apply orb_false_iff in H as [H1 H2].
  apply bool_decide_eq_false in H1, H2, H3. auto.
Qed.
Lemma not_tok w k a : is_contract w a = false -> a <> t_self (tok_of w k).
Proof. intros H. apply not_contract in H as (_ & H1 & H2). destruct k; assumption. Qed.

(** flow of the promises of a call *)
Lemma flow_effs k w c o s' e :
  WI k w -> exec c (w_mv w) o = Ok (s', e) ->
  sum_by (flow (self_id (w_mv w)) k) (map (pend_of (w_mv w)) e) = sent k e.
Proof.
  intros HI H. destruct (wi_stnear _ _ HI) as [_ _].
  unfold sum_by at 1. rewrite map_map. fold (sum_by (fun f => flow (self_id (w_mv w)) k (pend_of (w_mv w) f)) e).
  destruct k; cbn [sent]; apply sum_by_ext; intros [v n|t u r n] _; unfold flow, pend_of, outgoing, incoming;
    repeat case_decide; try congruence; try lia.
Qed.
Lemma poks_effs k w c o s' e :
  WI k w -> is_contract w (c_pred c) = false -> exec c (w_mv w) o = Ok (s', e) ->
  poks k w (map (pend_of (w_mv w)) e).
Proof.
  intros HI Hc H. apply not_contract in Hc as (Hc & _). apply List.Forall_forall. intros p Hp. apply in_map_iff in Hp as (f & <- & Hf).
  pose proof (exec_effs _ _ _ _ _ _ H Hf) as Hx. destruct (wi_ids _ _ HI) as (I1 & _ & _ & I4). pose proof (wi_stnear _ _ HI) as Hs.
  destruct f as [v n|t u r n]; cbn [pend_of pok].
  - destruct Hx as [-> Hn]. split; [exact Hc|]. split; [intros _; split; [exact I1|]; split; [reflexivity|exact Hn]|].
    rewrite I1. destruct k; cbn [tok_of]; [split; reflexivity|]. split; intros E; [contradiction I4|discriminate E].
  - destruct Hx as [-> ->]. split; [exact Hc|]. split; [discriminate|]. rewrite Hs. destruct k; split; congruence.
Qed.

(** a call from outside brings nothing *)
Lemma received_outside k w x s' e :
  WI k w -> is_contract w (c_pred x.1) = false -> exec x.1 (w_mv w) x.2 = Ok (s', e) -> received k (w_mv w) x = 0.
Proof.
  intros HI Hc H. pose proof (not_tok _ k _ Hc) as Ht. apply not_contract in Hc as (Hc & Hc1 & Hc2).
  destruct (wi_ids _ _ HI) as (I1 & _). pose proof (wi_stnear _ _ HI) as Hs.
  destruct x as [c o]. cbn [fst snd] in *. destruct k; unfold received, mp_received, st_received; cbn [fst snd]; destruct o; try reflexivity.
  - destruct ok; [reflexivity|]. exfalso. apply Hc. eapply c07_private. exact H.
  - rewrite decide_False by congruence. reflexivity.
  - destruct ok; [reflexivity|]. exfalso. apply Hc. cbn [exec] in H. apply noeff_Ok in H as [H _]. unfold after_transfer_stnear_callback in H.
    apply bind_Ok in H as (? & H & _). apply require_Ok, bool_decide_eq_true in H. exact H.
  - rewrite decide_False by congruence. rewrite decide_False; [reflexivity|]. destruct Hs as [_ Hs]. rewrite Hs by reflexivity. exact Ht.
Qed.

Definition ev_import (k : tk) (w : world) (ev : wev) : N :=
  match ev with
  | EMv x => if is_contract w (c_pred x.1) then 0
             else match exec x.1 (w_mv w) x.2 with Ok _ => imp k x | Panic _ => 0 end
  | _ => 0
  end.

Lemma ev_mv k w x : WI k w -> good_op k (t_self (tok_of w k)) x.2 -> wmove k w (wstep w (EMv x)) (ev_import k w (EMv x)).
Proof.
  intros HI Hg. cbn [wstep ev_import]. destruct (is_contract w (c_pred x.1)) eqn:Hc; [apply move_refl; exact HI|].
  destruct (exec x.1 (w_mv w) x.2) as [[s' e]|] eqn:H; [|apply move_refl; exact HI].
  destruct (mv_step k _ _ _ _ (wi_mb _ _ HI) H) as [HB Ho].
  apply (move_mv k w s' _ _ (imp k x)).
  - exact HI.
  - exact HB.
  - eapply exec_consts. exact H.
  - eapply stnear_kept; [exact H|exact Hg|exact (wi_stnear _ _ HI)].
  - eapply poks_effs; eauto.
  - rewrite (flow_effs k w _ _ _ _ HI H). rewrite (received_outside k w x s' e HI Hc H) in Ho. lia.
  - lia.
Qed.

Lemma TI_of k j w : WI k w -> TI (tok_of w j).
Proof. intros [_ H1 H2 _ _ _]. destruct j; assumption. Qed.

Lemma ev_tok k w j x : WI k w -> wmove k w (wstep w (ETok j x)) 0.
Proof.
  intros HI. cbn [wstep]. destruct (is_contract w (c_pred x.1)) eqn:Hc; [apply move_refl; exact HI|].
  destruct (t_exec x.1 (tok_of w j) x.2) as [[t' e]|] eqn:H; [|apply move_refl; exact HI].
  destruct (t_exec_spec _ _ _ _ (TI_of k j w HI) H) as (HT & Hp & _ & Hb & Hs & _).
  pose proof (not_tok _ j _ Hc) as Ht. apply not_contract in Hc as (Hc & _).
  assert (Hps : Forall (fun p => match p with PDeliver _ _ _ _ _ => True | _ => False end) (map (tpend_of j) e)).
  { apply List.Forall_forall. intros p Hin. apply in_map_iff in Hin as ([] & <- & _). exact I. }
  apply move_tok; [exact HI|exact HT|exact Hs| |].
  - eapply List.Forall_impl; [|exact Hps]. intros [] Hq; try contradiction Hq. exact I.
  - specialize (Hb (self_id (w_mv w))). destruct x as [c o]. cbn [fst snd] in *.
    destruct (decide (j = k)) as [->|Hj].
    + enough (sum_by (flow (self_id (w_mv w)) k) (map (tpend_of k) e) + debit (tok_of w k) (c, o) (self_id (w_mv w))
              <= credit (tok_of w k) (c, o) (self_id (w_mv w))) by lia.
      unfold debit, credit, t_permitted in *. cbn [fst snd] in *.
      destruct o; cbn [t_exec] in H; try (apply bind_Ok in H as (t1 & H & E); injection E as <- <-);
        try (rewrite ?decide_False by exact Hc); cbn [map]; rewrite ?sum_by_nil; try lia.
      * rewrite sum_by_cons, sum_by_nil. cbn [tpend_of]. unfold flow, outgoing, incoming. repeat case_decide; try lia; exfalso; tauto.
      * destruct Hp as [Hp _]. contradiction (Ht Hp).
    + enough (sum_by (flow (self_id (w_mv w)) k) (map (tpend_of j) e) = 0) by lia.
      apply sum_by_zero. intros p Hin. apply in_map_iff in Hin as ([] & <- & _). cbn [tpend_of]. unfold flow, outgoing, incoming.
      rewrite decide_False by tauto. lia.
Qed.

Lemma wmove_le k w w' d d' : wmove k w w' d -> d <= d' -> wmove k w w' d'.
Proof. intros (H1 & H2 & H3) H. split; [exact H1|]. split; [exact H2|lia]. Qed.
Lemma pok_any k w p : (match p with PPay _ _ _ _ _ => False | _ => True end) -> poks k w [p].
Proof. intros H. repeat constructor. destruct p; try exact I. contradiction H. Qed.
Lemma owed_st_kept s s' : uncl_st s' = uncl_st s -> owed St s' = owed St s.
Proof. intros H. exact H. Qed.

Lemma run_deliver k w j sender r n msg c fail ans : WI k w ->
  wmove k w (run_pend w (PDeliver j sender r n msg) c fail ans) (flow (self_id (w_mv w)) k (PDeliver j sender r n msg)).
Proof.
  intros HI. cbn [run_pend]. set (mv := self_id (w_mv w)).
  assert (Hany : forall res, wmove k w (w <| w_pend := w_pend w ++ [PResolve j sender r n res] |>) (flow mv k (PDeliver j sender r n msg))).
  { intros res. apply move_pend; [exact HI|apply pok_any; exact I|]. rewrite sum_by_cons, sum_by_nil. fold mv. unfold flow, outgoing, incoming.
    case_decide; [destruct res; lia|lia]. }
  case_bool_decide as Hr; [|apply Hany]. destruct fail; [apply Hany|].
  destruct (ft_on_transfer _ _ _ _ _) as [[s' u]|] eqn:Hf; [|apply Hany]. clear Hany.
  pose proof (c37_consumed _ _ _ _ _ _ _ Hf) as ->.
  set (c0 := called_by c (t_self (tok_of w j)) 0) in *.
  assert (H : exec c0 (w_mv w) (FtOnTransfer sender n msg) = Ok (s', [])) by (cbn [exec]; rewrite Hf; reflexivity).
  destruct (mv_step k (c0, FtOnTransfer sender n msg) _ _ _ (wi_mb _ _ HI) H) as [HB Ho].
  destruct (wi_ids _ _ HI) as (I1 & _ & _ & I4). pose proof (wi_stnear _ _ HI) as Hs.
  apply (move_mv k w s' _ _ (received k (w_mv w) (c0, FtOnTransfer sender n msg))).
  - exact HI.
  - exact HB.
  - eapply exec_consts. exact H.
  - eapply stnear_kept; [exact H|exact I|exact Hs].
  - apply pok_any. exact I.
  - rewrite sum_by_cons, sum_by_nil. assert (flow (self_id (w_mv w)) k (PResolve j sender r n (Some 0)) = 0) as ->.
    { unfold flow, outgoing, incoming. case_decide; lia. }
    assert (imp k (c0, FtOnTransfer sender n msg) = 0) by (destruct k; reflexivity). lia.
  - unfold flow, outgoing, incoming. unfold received, mp_received, st_received, c0. cbn [fst snd called_by c_pred].
    rewrite I1. destruct k, j; cbn [tok_of] in *.
    + rewrite !decide_True by auto. lia.
    + rewrite decide_False by congruence. lia.
    + rewrite decide_True by reflexivity. lia.
    + rewrite (decide_False (P := t_self (w_st w) = t_self (w_mp w))) by congruence. case_decide; [|lia]. rewrite decide_True by auto. lia.
Qed.

Lemma run_resolve k w j sender r n res c fail ans : WI k w ->
  wmove k w (run_pend w (PResolve j sender r n res) c fail ans) (flow (self_id (w_mv w)) k (PResolve j sender r n res)).
Proof.
  intros HI. cbn [run_pend]. destruct fail; [apply move_refl; exact HI|]. unfold t_step. cbn [fst snd].
  set (c0 := called_by c (t_self (tok_of w j)) 0). destruct (t_exec c0 (tok_of w j) (TResolve sender r n res)) as [[t' e]|] eqn:H.
  2:{ replace (set_tok w j (tok_of w j)) with w by (destruct w, j; reflexivity). apply move_refl. exact HI. }
  destruct (t_exec_spec (c0, TResolve sender r n res) _ _ _ (TI_of k j w HI) H) as (HT & _ & _ & Hb & Hs & _).
  assert (Ew : set_tok w j t' = set_tok w j t' <| w_pend := w_pend w ++ [] |>) by (rewrite app_nil_r; destruct w, j; reflexivity).
  rewrite Ew. apply move_tok; [exact HI|exact HT|exact Hs|constructor|].
  rewrite sum_by_nil. specialize (Hb (self_id (w_mv w))). unfold debit, credit in Hb. cbn [fst snd] in Hb.
  destruct (decide (j = k)) as [->|Hj]; [|lia]. unfold flow, outgoing, incoming. unfold refunded in Hb.
  destruct (decide (r = self_id (w_mv w))) as [Hr|Hr]; [rewrite decide_True by auto; lia|lia].
Qed.

Lemma run_pay k w cb tok src rcv n c fail ans : WI k w ->
  pok (self_id (w_mv w)) (t_self (w_mp w)) (t_self (tok_of w k)) k (PPay cb tok src rcv n) ->
  wmove k w (run_pend w (PPay cb tok src rcv n) c fail ans) (flow (self_id (w_mv w)) k (PPay cb tok src rcv n)).
Proof.
  intros HI (P1 & P2 & P3). cbn [run_pend].
  assert (Hany : forall ok, wmove k w (w <| w_pend := w_pend w ++ [PBack cb src n ok] |>) (flow (self_id (w_mv w)) k (PPay cb tok src rcv n))).
  { intros ok. apply move_pend; [exact HI|apply pok_any; exact I|]. rewrite sum_by_cons, sum_by_nil. unfold flow, outgoing, incoming.
    case_decide; destruct ok; lia. }
  set (j := if bool_decide (tok = t_self (w_mp w)) then Some Mp else if bool_decide (tok = t_self (w_st w)) then Some St else None).
  assert (Hj : match j with Some j => tok = t_self (tok_of w j) | None => True end).
  { unfold j. case_bool_decide; [assumption|]. case_bool_decide; [assumption|exact I]. }
  destruct j as [j|]; [|apply Hany]. destruct fail; [apply Hany|].
  set (c0 := called_by c (self_id (w_mv w)) 1). destruct (t_exec c0 (tok_of w j) (TTransfer rcv n)) as [[t' e]|] eqn:H; [|apply Hany].
  clear Hany. destruct (t_exec_spec (c0, TTransfer rcv n) _ _ _ (TI_of k j w HI) H) as (HT & _ & _ & Hb & Hs & _).
  apply move_tok; [exact HI|exact HT|exact Hs|apply pok_any; exact I|].
  rewrite sum_by_cons, sum_by_nil. specialize (Hb (self_id (w_mv w))). unfold debit, credit in Hb. cbn [fst snd] in Hb. unfold c0 in Hb. cbn [called_by c_pred] in Hb.
  rewrite (decide_False _ _ (P := rcv = self_id (w_mv w))) in Hb by exact P1. rewrite decide_True in Hb by reflexivity.
  unfold flow, outgoing, incoming. destruct (decide (j = k)) as [->|Hne]; [|lia].
  rewrite decide_True by (apply P3; exact Hj). lia.
Qed.

Lemma run_back k w cb src n ok c fail ans : WI k w ->
  wmove k w (run_pend w (PBack cb src n ok) c fail ans) (flow (self_id (w_mv w)) k (PBack cb src n ok)).
Proof.
  intros HI. cbn [run_pend]. destruct fail; [apply move_refl; exact HI|].
  set (c0 := called_by c (self_id (w_mv w)) 0). set (o := match cb with Mp => AfterMp src n ok | St => AfterSt src n ok end).
  unfold step. cbn [fst snd]. destruct (exec c0 (w_mv w) o) as [[s' e]|] eqn:H.
  2:{ replace (w <| w_mv := w_mv w |>) with w by (destruct w; reflexivity). apply move_refl. exact HI. }
  assert (Ew : w <| w_mv := s' |> = w <| w_mv := s' |> <| w_pend := w_pend w ++ [] |>) by (rewrite app_nil_r; destruct w; reflexivity).
  rewrite Ew. destruct (mv_step k (c0, o) _ _ _ (wi_mb _ _ HI) H) as [HB Ho].
  apply (move_mv k w s' _ _ (received k (w_mv w) (c0, o))).
  - exact HI.
  - exact HB.
  - eapply exec_consts. exact H.
  - eapply stnear_kept; [exact H|destruct cb; exact I|exact (wi_stnear _ _ HI)].
  - constructor.
  - rewrite sum_by_nil. assert (imp k (c0, o) = 0) by (destruct k, cb; reflexivity). lia.
  - unfold flow, outgoing, incoming, received, mp_received, st_received, o. cbn [fst snd]. destruct k, cb, ok; rewrite ?decide_True, ?decide_False by congruence; lia.
Qed.

Lemma wstep_move k w ev : WI k w -> good k (t_self (tok_of w k)) ev -> wmove k w (wstep w ev) (ev_import k w ev).
Proof.
  intros HI Hg. destruct ev as [x|j x|i c fail ans]; [apply ev_mv; assumption|apply ev_tok; exact HI|].
  cbn [wstep ev_import]. destruct (w_pend w !! i) as [p|] eqn:Hp; [|apply move_refl; exact HI].
  eapply move_take; [exact HI|exact Hp|]. intros HI0 Hpok.
  destruct p; [apply (run_deliver k _ _ _ _ _ _ c fail ans HI0)|apply (run_resolve k _ _ _ _ _ _ c fail ans HI0)
    |apply (run_pay k _ _ _ _ _ _ c fail ans HI0)|apply (run_back k _ _ _ _ _ c fail ans HI0)].
  destruct k; exact Hpok.
Qed.

(** ** Executions *)
Fixpoint w_imp (k : tk) (w : world) (evs : list wev) : N :=
  match evs with [] => 0 | ev :: evs' => ev_import k w ev + w_imp k (wstep w ev) evs' end.
Lemma w_imp_mp evs : forall w, w_imp Mp w evs = imported w evs.
Proof. induction evs as [|ev evs IH]; intros w; [reflexivity|]. cbn [w_imp imported]. rewrite IH. destruct ev; reflexivity. Qed.
Lemma w_imp_st evs : forall w, w_imp St w evs = 0.
Proof.
  induction evs as [|ev evs IH]; intros w; [reflexivity|]. cbn [w_imp]. rewrite IH. destruct ev; cbn [ev_import]; try reflexivity.
  destruct (is_contract _ _); [reflexivity|]. destruct (exec _ _ _); reflexivity.
Qed.
Lemma no_imports evs : Forall no_import evs -> forall w, imported w evs = 0.
Proof.
  induction 1 as [|ev evs He _ IH]; intros w; [reflexivity|]. cbn [imported]. rewrite IH. destruct ev as [x| |]; try reflexivity.
  cbn in He. destruct (is_contract _ _); [reflexivity|]. destruct (exec _ _ _); [|reflexivity].
  unfold imports, import_in in *. destruct (x.2); try discriminate He; reflexivity.
Qed.
Lemma wconst_tok w w' k : wconst w' = wconst w -> t_self (tok_of w' k) = t_self (tok_of w k).
Proof. unfold wconst. intros H. destruct k; cbn; congruence. Qed.
Lemma wrun_move k evs : forall w, WI k w -> Forall (good k (t_self (tok_of w k))) evs ->
  wmove k w (wrun w evs) (w_imp k w evs).
Proof.
  induction evs as [|ev evs IH]; intros w HI Hg; [apply move_refl; exact HI|].
  inversion Hg as [|? ? G1 G2]; subst. cbn [wrun fold_left w_imp]. fold (wrun (wstep w ev) evs).
  destruct (wstep_move k w ev HI G1) as (H1 & H2 & H3).
  rewrite <- (wconst_tok _ _ k H2) in G2. destruct (IH _ H1 G2) as (W1 & W2 & W3).
  split; [exact W1|]. split; [congruence|lia].
Qed.

Lemma wstart_WI k w : wstart w -> WI k w /\ load k w = 0.
Proof.
  intros (a & o1 & n1 & m1 & o2 & n2 & m2 & H & Hp & H1 & H2 & N1 & N2 & N3).
  apply t_new_spec in H1 as (T1 & _ & _ & _ & _ & S1). apply t_new_spec in H2 as (T2 & _ & _ & _ & _ & S2).
  pose proof (CIs_init _ _ H) as HC. pose proof (init_zero _ _ H) as (_ & _ & Z1 & Z2 & _ & _ & Hv & _).
  assert (E1 : self_id (w_mv w) = i_self a /\ mpdao_addr (w_mv w) = i_mpdao a /\ stnear_addr (w_mv w) = i_stnear a).
  { unfold mv_new in H. rinv. rewrite <- H. split; [reflexivity|]. split; reflexivity. }
  destruct E1 as (E1 & E2 & E3). split.
  - split.
    + split; [|exact HC]. unfold voter_ids. rewrite Hv. constructor.
    + exact T1.
    + exact T2.
    + unfold ids. rewrite E1, E2, S1, S2. auto.
    + rewrite Hp. constructor.
    + rewrite E3. destruct k; cbn [tok_of]; [rewrite S1|rewrite S2]; split; congruence.
  - unfold load. rewrite Hp, sum_by_nil. destruct k; cbn [owed].
    + unfold mp_owed, get_total_unclaimed_mpdao, voter_ids. rewrite Hv, Z1. reflexivity.
    + cbn. rewrite Z2. reflexivity.
Qed.

Lemma calm_good k w0 ev : calm k w0 ev -> good k (t_self (tok_of w0 k)) ev.
Proof.
  destruct k; unfold calm, not_mpdao, keeps_stnear, good, good_op; destruct ev as [[c o]| |]; intros H; try exact I; destruct o; try exact I; cbn [snd tok_of].
  - destruct H as [H _]. split; [contradiction|discriminate].
  - split; [reflexivity|]. intros _. exact H.
Qed.
Lemma w_general w0 evs : wstart w0 -> Forall (not_mpdao w0) evs ->
  let w := wrun w0 evs in
  mp_owed (w_mv w) + out_flight Mp w + in_flight Mp w <= funds Mp w + imported w0 evs.
Proof.
  intros Hs Hg w. destruct (wstart_WI Mp _ Hs) as [HI Hl]. destruct (wrun_move Mp evs w0 HI) as (_ & _ & H).
  { eapply List.Forall_impl; [|exact Hg]. intros [[c o]| |] He; try exact I. destruct o; try exact I. cbn in *. split; [contradiction|discriminate]. }
  rewrite w_imp_mp in H. rewrite load_eq in H. fold w in H. cbn [owed] in H. lia.
Qed.
Definition wready (k : tk) (w : world) : Prop := WI k w /\ load k w <= funds k w.
Lemma w_ready k w0 evs : wstart w0 -> Forall (calm k w0) evs -> wready k (wrun w0 evs).
Proof.
  intros Hs Hg. destruct (wstart_WI k _ Hs) as [HI Hl].
  destruct (wrun_move k evs w0 HI) as (H1 & _ & H).
  { eapply List.Forall_impl; [|exact Hg]. apply calm_good. }
  split; [exact H1|]. assert (w_imp k w0 evs = 0).
  { destruct k; [|apply w_imp_st]. rewrite w_imp_mp. apply no_imports. eapply List.Forall_impl; [|exact Hg]. intros ev He. apply He. }
  lia.
Qed.
Lemma w_solvent k w0 evs : wstart w0 -> Forall (calm k w0) evs ->
  let w := wrun w0 evs in owed k (w_mv w) + out_flight k w + in_flight k w <= funds k w.
Proof. intros Hs Hg w. destruct (w_ready k w0 evs Hs Hg) as [_ H]. rewrite load_eq in H. exact H. Qed.

(** ** Consequences *)
Lemma flow_le k w i p : w_pend w !! i = Some p -> flow (self_id (w_mv w)) k p <= load k w - owed k (w_mv w).
Proof.
  intros H. unfold load. pose proof (sum_by_delete (flow (self_id (w_mv w)) k) _ _ _ H). lia.
Qed.
Lemma bal_le t a : TI t -> ft_balance_of t a <= t_supply t.
Proof. intros (_ & Hs & _). rewrite Hs. apply tsum_ge. Qed.
Lemma bal_registered t a : 0 < ft_balance_of t a -> exists b, om_get (t_accounts t) a = Some b /\ ft_balance_of t a = b.
Proof. unfold ft_balance_of. destruct (om_get (t_accounts t) a) as [b|]; cbn; [eauto|lia]. Qed.
Lemma registered_get t a : t_registered t a = true -> om_get (t_accounts t) a = Some (ft_balance_of t a).
Proof. unfold t_registered, ft_balance_of. destruct (om_get (t_accounts t) a); [reflexivity|discriminate]. Qed.

Lemma transfer_fwd c t a r n : TI t -> c_pred c = a -> c_deposit c = 1 -> a <> r -> 0 < n -> n <= ft_balance_of t a ->
  t_registered t r = true -> exists t', t_exec c t (TTransfer r n) = Ok (t', []).
Proof.
  intros HI Ha Hd Hne Hn Hb Hr. cbn [t_exec]. unfold noteff, t_ft_transfer, assert_one_yocto. rewrite Hd. cbn [N.eqb Pos.eqb require mbind res_bind].
  unfold t_transfer. rewrite Ha. rewrite bool_decide_false by exact Hne. cbn [negb require mbind res_bind].
  destruct (N.ltb_spec 0 n); [|lia]. cbn [require mbind res_bind].
  assert (Hw : exists t1, t_withdraw t a n = Ok t1).
  { destruct (bal_registered t a) as (b & Eb & Ebb); [lia|]. pose proof (bal_le t a HI).
    unfold t_withdraw, t_unwrap_balance. rewrite Eb. cbn [expect mbind res_bind].
    destruct (N.leb_spec n b); [|lia]. cbn [require mbind res_bind]. destruct (N.leb_spec n (t_supply t)); [|lia]. cbn. eauto. }
  destruct Hw as (t1 & Hw). rewrite Hw. cbn [mbind res_bind].
  destruct (t_withdraw_spec _ _ _ _ HI Hw) as (HI1 & E1 & B1 & _ & _ & _ & _ & R1).
  assert (Hr1 : t_registered t1 r = true) by (rewrite R1; exact Hr). apply registered_get in Hr1.
  pose proof (bal_le t1 r HI1). destruct HI as (_ & _ & Hl).
  unfold t_deposit, t_unwrap_balance. rewrite Hr1. cbn [expect mbind res_bind].
  destruct (N.ltb_spec (ft_balance_of t1 r + n) U128_SIZE); [|lia]. cbn [require mbind res_bind].
  destruct (N.ltb_spec (t_supply t1 + n) U128_SIZE); [|lia]. cbn [require mbind res_bind]. eauto.
Qed.

Lemma pok_at k w i p : WI k w -> w_pend w !! i = Some p -> pok (self_id (w_mv w)) (t_self (w_mp w)) (t_self (tok_of w k)) k p.
Proof. intros HI H. pose proof (wi_ok _ _ HI) as HF. unfold poks in HF. rewrite Forall_forall in HF. apply HF. eapply elem_of_list_lookup_2. exact H. Qed.

(** a pending transfer succeeds, if its receiver can receive *)
Lemma w_funded k w i tok src rcv n c ans : wready k w -> w_pend w !! i = Some (PPay k tok src rcv n) ->
  0 < n -> t_registered (tok_of w k) rcv = true ->
  let w' := wstep w (ERun i c false ans) in
  w_pend w' = delete i (w_pend w) ++ [PBack k src n true] /\ w_mv w' = w_mv w /\
  ft_balance_of (tok_of w' k) rcv = ft_balance_of (tok_of w k) rcv + n /\ funds k w' + n = funds k w.
Proof.
  intros [HI Hl] Hp Hn Hr w'. pose proof (pok_at _ _ _ _ HI Hp) as (P1 & _ & P3). 
  pose proof (flow_le k _ _ _ Hp) as Hf. unfold flow, outgoing in Hf. rewrite decide_True in Hf by reflexivity.
  assert (Ht : tok = t_self (tok_of w k)) by (apply P3; reflexivity).
  destruct (wi_ids _ _ HI) as (_ & _ & _ & I4).
  unfold w'. cbn [wstep]. rewrite Hp. cbn [run_pend].
  set (w1 := w <| w_pend := delete i (w_pend w) |>).
  assert (E1 : w_mv w1 = w_mv w) by reflexivity. assert (E2 : forall j, tok_of w1 j = tok_of w j) by (intros []; reflexivity).
  assert (E3 : w_pend w1 = delete i (w_pend w)) by reflexivity.
  change (w_mp w1) with (w_mp w). change (w_st w1) with (w_st w).
  assert (Ej : (if bool_decide (tok = t_self (w_mp w)) then Some Mp else if bool_decide (tok = t_self (w_st w)) then Some St else None) = Some k).
  { rewrite Ht. destruct k; cbn [tok_of]; [rewrite bool_decide_true by reflexivity; reflexivity|].
    rewrite bool_decide_false by congruence. rewrite bool_decide_true by reflexivity. reflexivity. }
  rewrite Ej, E1, E2.
  destruct (transfer_fwd (called_by c (self_id (w_mv w)) 1) (tok_of w k) (self_id (w_mv w)) rcv n) as (t' & Hx).
  { apply (TI_of k k w HI). } { reflexivity. } { reflexivity. } { congruence. } { exact Hn. } { unfold funds in Hl. lia. } { exact Hr. }
  rewrite Hx, E3. destruct (t_exec_spec (_, TTransfer rcv n) _ _ _ (TI_of k k w HI) Hx) as (_ & _ & _ & Hb & _).
  pose proof (Hb rcv) as Hb1. pose proof (Hb (self_id (w_mv w))) as Hb2. unfold debit, credit in Hb1, Hb2. cbn [fst snd called_by c_pred] in Hb1, Hb2.
  rewrite decide_False in Hb1 by congruence. rewrite decide_True in Hb1 by reflexivity.
  rewrite decide_True in Hb2 by reflexivity. rewrite decide_False in Hb2 by exact P1.
  unfold funds. destruct k; cbn; (split; [reflexivity|]); (split; [reflexivity|]); cbn [tok_of] in *; lia.
Qed.

(** a failed transfer is put back *)
Lemma raw_le s vid : NoDup (voter_ids s) -> raw_balance s vid <= mp_owed s.
Proof.
  intros Hn. unfold mp_owed. destruct (om_get (voters s) vid) as [v|] eqn:E.
  - assert (In vid (voter_ids s)) as Hin by (apply elem_of_list_In; eapply om_get_Some_key; exact E).
    pose proof (sum_by_ge_elem (fun vid => raw_balance s vid + positions_amount s vid) _ _ Hin). cbn beta in *. lia.
  - unfold raw_balance, get_voter. rewrite E. cbn. lia.
Qed.
Lemma w_restore_mp w i src n c ans : wready Mp w -> w_pend w !! i = Some (PBack Mp src n false) ->
  let w' := wstep w (ERun i c false ans) in
  w_pend w' = delete i (w_pend w) /\ raw_balance (w_mv w') src = raw_balance (w_mv w) src + n.
Proof.
  intros [HI Hl] Hp w'. pose proof (flow_le Mp _ _ _ Hp) as Hf. unfold flow, outgoing in Hf. rewrite decide_True in Hf by reflexivity.
  pose proof (raw_le _ src (proj1 (wi_mb _ _ HI))) as Hr. pose proof (bal_le _ (self_id (w_mv w)) (wi_mp _ _ HI)) as Hb.
  destruct (wi_mp _ _ HI) as (_ & _ & Hs). unfold funds in Hl. cbn [tok_of] in Hl. cbn [owed] in Hf.
  assert (load Mp w >= mp_owed (w_mv w)) by (unfold load; cbn [owed]; lia).
  destruct (c07_restore (called_by c (self_id (w_mv w)) 0) (w_mv w) src n) as (s' & Hx & Hraw & _).
  { reflexivity. } { reflexivity. } { change (2 ^ 128) with U128_SIZE. lia. }
  unfold w'. cbn [wstep]. rewrite Hp. cbn [run_pend]. split; [reflexivity|].
  change (w_mv (w <| w_pend := delete i (w_pend w) |>)) with (w_mv w). unfold step. cbn [fst snd]. rewrite Hx. exact Hraw.
Qed.
Lemma w_restore_st w i src n c ans : wready St w -> w_pend w !! i = Some (PBack St src n false) -> 0 < n ->
  let w' := wstep w (ERun i c false ans) in
  w_pend w' = delete i (w_pend w) /\ get_claimable_stnear (w_mv w') src = get_claimable_stnear (w_mv w) src + n.
Proof.
  intros [HI Hl] Hp Hn w'. pose proof (flow_le St _ _ _ Hp) as Hf. unfold flow, outgoing in Hf. rewrite decide_True in Hf by reflexivity.
  pose proof (bal_le _ (self_id (w_mv w)) (wi_st _ _ HI)) as Hb.
  destruct (wi_st _ _ HI) as (_ & _ & Hs). unfold funds in Hl. cbn [tok_of] in Hl. cbn [owed] in Hf.
  change (ci_uncl_st (get_contract_info (w_mv w))) with (uncl_st (w_mv w)) in Hf.
  assert (load St w >= uncl_st (w_mv w)) by (unfold load; cbn; lia).
  destruct (wi_mb _ _ HI) as [_ [_ HC]].
  pose proof (add_st_fwd (w_mv w) src n HC Hn ltac:(lia)) as Hx.
  unfold w'. cbn [wstep]. rewrite Hp. cbn [run_pend]. split; [reflexivity|].
  change (w_mv (w <| w_pend := delete i (w_pend w) |>)) with (w_mv w). unfold step. cbn [fst snd exec]. unfold after_transfer_stnear_callback, assert_private, non_payable.
  cbn [called_by c_pred c_deposit]. rewrite bool_decide_true by reflexivity. cbn [N.eqb require mbind res_bind]. rewrite Hx. cbn [mbind res_bind noeff].
  unfold get_claimable_stnear. cbn. rewrite om_get_set_eq. reflexivity.
Qed.

(** a rejected deposit goes back in full *)
Lemma w_refund k w i sender n c ans : wready k w -> w_pend w !! i = Some (PResolve k sender (self_id (w_mv w)) n None) ->
  sender <> self_id (w_mv w) -> t_registered (tok_of w k) sender = true ->
  let w' := wstep w (ERun i c false ans) in
  w_pend w' = delete i (w_pend w) /\ w_mv w' = w_mv w /\
  ft_balance_of (tok_of w' k) sender = ft_balance_of (tok_of w k) sender + n /\ funds k w' + n = funds k w.
Proof.
  intros [HI Hl] Hp Hne Hr w'. pose proof (flow_le k _ _ _ Hp) as Hf. unfold flow, outgoing, incoming in Hf. rewrite decide_True in Hf by auto.
  set (mv := self_id (w_mv w)) in *. assert (Hfund : n <= ft_balance_of (tok_of w k) mv) by (unfold funds in Hl; fold mv in Hl; lia).
  pose proof (TI_of k k w HI) as HT.
  set (c0 := called_by c (t_self (tok_of w k)) 0).
  assert (Hx : exists t', t_exec c0 (tok_of w k) (TResolve sender mv n None) = Ok (t', [])).
  { cbn [t_exec]. unfold noteff, non_payable, assert_private. cbn [c0 called_by c_deposit c_pred]. rewrite bool_decide_true by reflexivity. cbn [N.eqb require mbind res_bind].
    enough (exists r, t_resolve (tok_of w k) sender mv n None = Ok r) as ([t' u] & ->) by (cbn; eauto).
    unfold t_resolve. destruct (N.ltb_spec 0 n); [|eauto]. fold (ft_balance_of (tok_of w k) mv).
    destruct (N.ltb_spec 0 (ft_balance_of (tok_of w k) mv)); [|eauto]. cbn [t_accounts set].
    rewrite om_get_set_ne by congruence. apply registered_get in Hr. rewrite Hr.
    rewrite N.min_r by lia.
    assert (Hb : ft_balance_of (tok_of w k) sender + n < U128_SIZE).
    { destruct (bal_registered (tok_of w k) mv) as (b & Eb & Ebb); [lia|]. destruct HT as (_ & Hs & Hlt). fold tsum in Hs.
      pose proof (tsum_set_old _ _ _ (b - n) Eb) as T1. pose proof (tsum_ge (om_set (t_accounts (tok_of w k)) mv (b - n)) sender) as T2.
      rewrite om_get_set_ne in T2 by congruence. fold (ft_balance_of (tok_of w k) sender) in T2. lia. }
    destruct (N.ltb_spec (ft_balance_of (tok_of w k) sender + n) U128_SIZE); [|lia]. cbn [require mbind res_bind]. eauto. }
  destruct Hx as (t' & Hx).
  destruct (t_exec_spec (_, TResolve sender mv n None) _ _ _ HT Hx) as (_ & _ & _ & Hb & _).
  pose proof (Hb sender) as Hb1. pose proof (Hb mv) as Hb2. unfold debit, credit, refunded in Hb1, Hb2. cbn [fst snd] in Hb1, Hb2. rewrite Hr in Hb1, Hb2.
  rewrite decide_False in Hb1 by congruence. rewrite decide_True in Hb1 by reflexivity.
  rewrite decide_True in Hb2 by reflexivity. rewrite decide_False in Hb2 by congruence. rewrite N.min_r in Hb1, Hb2 by lia.
  unfold w'. cbn [wstep]. rewrite Hp. cbn [run_pend].
  set (w1 := w <| w_pend := delete i (w_pend w) |>).
  assert (E2 : tok_of w1 k = tok_of w k) by (destruct k; reflexivity). rewrite E2. unfold t_step. cbn [fst snd]. fold c0. rewrite Hx.
  unfold funds. destruct k; cbn; (split; [reflexivity|]); (split; [reflexivity|]); fold mv; cbn [tok_of] in *; lia.
Qed.
