(** WorldExact.v -- C84: every token the contract holds is accounted for. *)

From Verif Require Export WorldProofs.

(** *** Specification *)
(** tokens sent to the contract by a plain ft_transfer, which tells it nothing *)
Definition given (k : tk) (w : world) (ev : wev) : N :=
  match ev with
  | ETok j (c, TTransfer r n) =>
      if decide (j = k /\ r = self_id (w_mv w)) then
        if is_contract w (c_pred c) then 0 else match t_exec c (tok_of w j) (TTransfer r n) with Ok _ => n | Panic _ => 0 end
      else 0
  | _ => 0
  end.
(** what a callback leaves behind whose receipt fails (for instance for lack of gas): the callback of a failed transfer, or
    of a deposit that was not taken *)
Definition stranded (k : tk) (w : world) (ev : wev) : N :=
  match ev with
  | ERun i _ true _ =>
      match w_pend w !! i with
      | Some (PBack cb _ n false) => if decide (cb = k) then n else 0
      | Some (PResolve j _ r n result) =>
          if decide (j = k /\ r = self_id (w_mv w)) then match result with Some u => N.min n u | None => n end else 0
      | _ => 0
      end
  | _ => 0
  end.
Fixpoint over_run (f : world -> wev -> N) (w : world) (evs : list wev) : N :=
  match evs with [] => 0 | ev :: evs' => f w ev + over_run f (wstep w ev) evs' end.

(** *** Proofs *)
Definition left_over (k : tk) (w : world) (ev : wev) : N := given k w ev + stranded k w ev.
Definition exact_move (k : tk) (w w' : world) (d : N) : Prop := load k w' + funds k w + d = load k w + funds k w'.
Definition psnd (mv : string) (p : pend) : Prop :=
  match p with PDeliver _ s _ _ _ | PResolve _ s _ _ _ => s <> mv | _ => True end.
Definition senders (w : world) : Prop := Forall (psnd (self_id (w_mv w))) (w_pend w).

Lemma mv_exact k x s s' e : MB s -> imp k x = 0 -> import_out s x = 0 -> exec x.1 s x.2 = Ok (s', e) ->
  owed k s' + sent k e = owed k s + received k s x.
Proof.
  intros [Hn HC] Hi Ho H. destruct (c05_general _ _ _ _ Hn H) as [_ Hm]. pose proof (c05_st _ _ _ _ HC H) as Hs.
  destruct k; unfold owed, sent, received, imp in *; [|exact Hs]. rewrite Hi, Ho in Hm. lia.
Qed.
Lemma load_mv k w s' ps : self_id s' = self_id (w_mv w) ->
  load k (w <| w_mv := s' |> <| w_pend := w_pend w ++ ps |>) =
  owed k s' + sum_by (flow (self_id (w_mv w)) k) (w_pend w) + sum_by (flow (self_id (w_mv w)) k) ps.
Proof. intros E. unfold load. cbn. rewrite E, sum_by_app. lia. Qed.
Lemma funds_mv k w s' ps : self_id s' = self_id (w_mv w) -> funds k (w <| w_mv := s' |> <| w_pend := ps |>) = funds k w.
Proof. intros E. unfold funds. cbn. rewrite E. destruct k; reflexivity. Qed.
Lemma load_pend k w ps : load k (w <| w_pend := w_pend w ++ ps |>) = load k w + sum_by (flow (self_id (w_mv w)) k) ps.
Proof. unfold load. cbn. rewrite sum_by_app. lia. Qed.
Lemma funds_pend k w ps : funds k (w <| w_pend := ps |>) = funds k w.
Proof. destruct k; reflexivity. Qed.
Lemma load_tok k j w t' ps : load k (set_tok w j t' <| w_pend := w_pend w ++ ps |>) = load k w + sum_by (flow (self_id (w_mv w)) k) ps.
Proof. unfold load. destruct j; cbn; rewrite sum_by_app; lia. Qed.
Lemma funds_tok k j w t' ps : funds k (set_tok w j t' <| w_pend := ps |>) = if decide (j = k) then ft_balance_of t' (self_id (w_mv w)) else funds k w.
Proof. unfold funds. destruct j, k; cbn; try reflexivity. Qed.

Lemma ev_mv_exact k w x : WI k w -> imp k x = 0 -> (k = Mp -> imports x = false) -> exact_move k w (wstep w (EMv x)) 0.
Proof.
  intros HI Hi Hm. unfold exact_move. cbn [wstep]. destruct (is_contract w (c_pred x.1)) eqn:Hc; [lia|].
  destruct (exec x.1 (w_mv w) x.2) as [[s' e]|] eqn:H; [|lia].
  pose proof (exec_consts _ _ _ _ _ H) as Ec. apply consts_of in Ec as [Ec _]. rewrite load_mv, funds_mv by exact Ec.
  rewrite (flow_effs k w _ _ _ _ HI H). unfold load.
  assert (Ho : owed k s' + sent k e = owed k (w_mv w) + received k (w_mv w) x).
  { destruct k; [apply mv_exact; [apply HI|exact Hi| |exact H]|exact (c05_st _ _ _ _ (proj2 (wi_mb _ _ HI)) H)].
    specialize (Hm eq_refl). unfold imports, import_out in *. destruct (x.2); try reflexivity; discriminate Hm. }
  rewrite (received_outside k w x s' e HI Hc H) in Ho. lia.
Qed.
Lemma ev_tok_exact k w j x : WI k w -> exact_move k w (wstep w (ETok j x)) (given k w (ETok j x)).
Proof.
  intros HI. unfold exact_move. destruct x as [c o]. cbn [wstep fst snd].
  destruct (is_contract w (c_pred c)) eqn:Hc. { cbn [given]. destruct o; try lia. rewrite Hc. case_decide; lia. }
  destruct (t_exec c (tok_of w j) o) as [[t' e]|] eqn:H. 2:{ cbn [given]. destruct o; try lia. rewrite Hc, H. case_decide; lia. }
  destruct (t_exec_spec (c, o) _ _ _ (TI_of k j w HI) H) as (HT & Hp & _ & Hb & Hs & _).
  pose proof (not_tok _ j _ Hc) as Ht. pose proof Hc as Hc0. apply not_contract in Hc as (Hc & _).
  rewrite load_tok, funds_tok. specialize (Hb (self_id (w_mv w))).
  destruct (decide (j = k)) as [->|Hj].
  - enough (sum_by (flow (self_id (w_mv w)) k) (map (tpend_of k) e) + debit (tok_of w k) (c, o) (self_id (w_mv w)) + given k w (ETok k (c, o))
              = credit (tok_of w k) (c, o) (self_id (w_mv w))) by (unfold funds; lia).
    unfold debit, credit, t_permitted in *. cbn [fst snd] in *. cbn [given].
    destruct o; cbn [t_exec] in H; try (apply bind_Ok in H as (t1 & H & E); injection E as <- <-);
      try (rewrite ?decide_False by exact Hc); cbn [map]; rewrite ?sum_by_nil; try lia.
    + rewrite Hc0. cbn [t_exec]. unfold noteff. rewrite H. cbn [mbind res_bind]. repeat case_decide; try lia; exfalso; tauto.
    + rewrite sum_by_cons, sum_by_nil. cbn [tpend_of]. unfold flow, outgoing, incoming. repeat case_decide; try lia; exfalso; tauto.
    + destruct Hp as [Hp _]. contradiction (Ht Hp).
  - enough (sum_by (flow (self_id (w_mv w)) k) (map (tpend_of j) e) = 0 /\ given k w (ETok j (c, o)) = 0) as [E1 E2] by (rewrite E1, E2; lia).
    split.
    + apply sum_by_zero. intros p Hin. apply in_map_iff in Hin as ([] & <- & _). cbn [tpend_of]. unfold flow, outgoing, incoming.
      rewrite decide_False by tauto. lia.
    + cbn [given]. destruct o; try reflexivity. rewrite decide_False by tauto. reflexivity.
Qed.

(** the receipt [p] has been taken off the list; [d]: what stays behind *)
Definition exact_run (k : tk) (w : world) (p : pend) (w' : world) (d : N) : Prop :=
  load k w' + funds k w + d = load k w + flow (self_id (w_mv w)) k p + funds k w'.

Lemma deliver_exact k w j sender r n msg c fail ans : WI k w ->
  exact_run k w (PDeliver j sender r n msg) (run_pend w (PDeliver j sender r n msg) c fail ans) 0 \/ r <> self_id (w_mv w).
Proof.
  intros HI. cbn [run_pend]. destruct (decide (r = self_id (w_mv w))) as [Hr|Hr]; [left|right; exact Hr].
  rewrite bool_decide_true by exact Hr. unfold exact_run.
  assert (Hany : load k (w <| w_pend := w_pend w ++ [PResolve j sender r n None] |>) + funds k w + 0 =
    load k w + flow (self_id (w_mv w)) k (PDeliver j sender r n msg) + funds k (w <| w_pend := w_pend w ++ [PResolve j sender r n None] |>)).
  { rewrite load_pend, funds_pend, sum_by_cons, sum_by_nil. unfold flow, outgoing, incoming. case_decide; lia. }
  destruct fail; [exact Hany|]. destruct (ft_on_transfer _ _ _ _ _) as [[s' u]|] eqn:Hf; [|exact Hany]. clear Hany.
  pose proof (c37_consumed _ _ _ _ _ _ _ Hf) as ->.
  set (c0 := called_by c (t_self (tok_of w j)) 0) in *.
  assert (H : exec c0 (w_mv w) (FtOnTransfer sender n msg) = Ok (s', [])) by (cbn [exec]; rewrite Hf; reflexivity).
  pose proof (mv_exact k (c0, FtOnTransfer sender n msg) _ _ _ (wi_mb _ _ HI) ltac:(destruct k; reflexivity) eq_refl H) as Ho.
  pose proof (exec_consts _ _ _ _ _ H) as Ec. apply consts_of in Ec as [Ec _].
  destruct (wi_ids _ _ HI) as (I1 & _ & _ & I4). pose proof (wi_stnear _ _ HI) as Hs.
  rewrite load_mv, funds_mv by exact Ec. unfold load. rewrite sum_by_cons, sum_by_nil.
  assert (flow (self_id (w_mv w)) k (PResolve j sender r n (Some 0)) = 0) as -> by (unfold flow, outgoing, incoming; case_decide; lia).
  assert (E0 : sent k [] = 0) by (destruct k; reflexivity). rewrite E0 in Ho.
  enough (received k (w_mv w) (c0, FtOnTransfer sender n msg) = flow (self_id (w_mv w)) k (PDeliver j sender r n msg)) by lia.
  unfold flow, outgoing, incoming. unfold received, mp_received, st_received, c0. cbn [fst snd called_by c_pred].
  rewrite I1. destruct k, j; cbn [tok_of] in *.
  - rewrite !decide_True by auto. lia.
  - rewrite decide_False by congruence. rewrite decide_False by (intros [? _]; discriminate). lia.
  - rewrite decide_True by reflexivity. rewrite decide_False by (intros [? _]; discriminate). lia.
  - rewrite (decide_False (P := t_self (w_st w) = t_self (w_mp w))) by congruence. rewrite decide_True by (symmetry; apply Hs; reflexivity). rewrite decide_True by auto. lia.
Qed.
Lemma deliver_other k w j sender r n msg c fail ans : r <> self_id (w_mv w) ->
  exact_run k w (PDeliver j sender r n msg) (run_pend w (PDeliver j sender r n msg) c fail ans) 0.
Proof.
  intros Hr. cbn [run_pend]. rewrite bool_decide_false by exact Hr. unfold exact_run. rewrite load_pend, funds_pend, sum_by_cons, sum_by_nil.
  unfold flow, outgoing, incoming. rewrite !decide_False by tauto. lia.
Qed.

(** a refund is never refused *)
Lemma resolve_fwd c t s r n res : TI t -> s <> r -> c_deposit c = 0 -> c_pred c = t_self t -> exists t', t_exec c t (TResolve s r n res) = Ok (t', []).
Proof.
  intros HT Hne Hd Hp. cbn [t_exec]. unfold noteff, non_payable, assert_private. rewrite Hd, Hp. rewrite bool_decide_true by reflexivity. cbn [N.eqb require mbind res_bind].
  enough (exists x, t_resolve t s r n res = Ok x) as ([t' u] & ->) by (cbn; eauto).
  unfold t_resolve. set (un := match res with Some u => N.min n u | None => n end). cbv zeta. destruct (0 <? un); [|eauto].
  destruct (N.ltb_spec 0 (default 0 (om_get (t_accounts t) r))) as [Hb|]; [|eauto]. destruct (om_get (t_accounts t) r) as [b|] eqn:Eb; cbn [default from_option] in *; unfold Datatypes.id in *; [|lia].
  cbn [t_accounts set]. rewrite om_get_set_ne by congruence. destruct HT as (_ & Hs & Hlt). fold tsum in Hs.
  pose proof (tsum_set_old _ _ _ (b - N.min b un) Eb) as T1. 
  destruct (om_get (t_accounts t) s) as [sb|] eqn:Es.
  - pose proof (tsum_ge (om_set (t_accounts t) r (b - N.min b un)) s) as T2. rewrite om_get_set_ne in T2 by congruence. rewrite Es in T2. cbn [default from_option] in T2. unfold Datatypes.id in T2.
    destruct (N.ltb_spec (sb + N.min b un) U128_SIZE); [|lia]. cbn [require mbind res_bind]. eauto.
  - cbn [t_supply set]. destruct (N.leb_spec (N.min b un) (t_supply t)); [|lia]. cbn [require mbind res_bind]. eauto.
Qed.
Lemma resolve_exact k w j sender r n res c ans : WI k w -> sender <> self_id (w_mv w) ->
  load k w + flow (self_id (w_mv w)) k (PResolve j sender r n res) <= funds k w ->
  exact_run k w (PResolve j sender r n res) (run_pend w (PResolve j sender r n res) c false ans) 0.
Proof.
  intros HI Hsn Hl. cbn [run_pend]. unfold t_step. cbn [fst snd]. unfold exact_run.
  assert (E0 : forall t', set_tok w j t' = set_tok w j t' <| w_pend := w_pend w ++ [] |>) by (intros t'; rewrite app_nil_r; destruct w, j; reflexivity).
  set (c0 := called_by c (t_self (tok_of w j)) 0). 
  destruct (t_exec c0 (tok_of w j) (TResolve sender r n res)) as [[t' e]|] eqn:H.
  - destruct (t_exec_spec (c0, TResolve sender r n res) _ _ _ (TI_of k j w HI) H) as (HT & _ & _ & Hb & Hs & _).
    rewrite E0, load_tok, funds_tok, sum_by_nil. specialize (Hb (self_id (w_mv w))). unfold debit, credit in Hb. cbn [fst snd] in Hb.
    rewrite (decide_False (P := sender = self_id (w_mv w))) in Hb by exact Hsn.
    unfold flow, outgoing, incoming in *. destruct (decide (j = k)) as [->|Hj].
    + unfold refunded in Hb. destruct (decide (r = self_id (w_mv w))) as [Hr|Hr].
      * subst r. rewrite decide_True in * by auto. unfold funds in *. rewrite N.min_r in Hb by (unfold load in Hl; lia). destruct (t_registered _ _); lia.
      * rewrite decide_False by tauto. unfold funds. destruct (t_registered _ _); lia.
    + rewrite decide_False by tauto. lia.
  - assert (Hsr : sender = r).
    { destruct (decide (sender = r)) as [E|E]; [exact E|]. destruct (resolve_fwd c0 (tok_of w j) sender r n res (TI_of k j w HI) E eq_refl eq_refl) as (t' & Hx). congruence. }
    subst r. replace (set_tok w j (tok_of w j)) with w by (destruct w, j; reflexivity). unfold flow, outgoing, incoming. rewrite decide_False by tauto. lia.
Qed.
Lemma pay_exact k w cb tok src rcv n c fail ans : WI k w ->
  pok (self_id (w_mv w)) (t_self (w_mp w)) (t_self (tok_of w k)) k (PPay cb tok src rcv n) ->
  exact_run k w (PPay cb tok src rcv n) (run_pend w (PPay cb tok src rcv n) c fail ans) 0.
Proof.
  intros HI (P1 & P2 & P3). cbn [run_pend]. unfold exact_run. destruct (wi_ids _ _ HI) as (_ & _ & _ & I4).
  set (j := if bool_decide (tok = t_self (w_mp w)) then Some Mp else if bool_decide (tok = t_self (w_st w)) then Some St else None).
  assert (Hj : match j with Some j => tok = t_self (tok_of w j) | None => cb <> k end).
  { unfold j. case_bool_decide as H1; [assumption|]. case_bool_decide as H2; [assumption|]. intros ->. assert (tok = t_self (tok_of w k)) by (apply P3; reflexivity). destruct k; cbn in *; congruence. }
  assert (Hno : load k (w <| w_pend := w_pend w ++ [PBack cb src n false] |>) + funds k w + 0 =
    load k w + flow (self_id (w_mv w)) k (PPay cb tok src rcv n) + funds k (w <| w_pend := w_pend w ++ [PBack cb src n false] |>)).
  { rewrite load_pend, funds_pend, sum_by_cons, sum_by_nil. unfold flow, outgoing, incoming. case_decide; lia. }
  destruct j as [j|].
  2:{ rewrite load_pend, funds_pend, sum_by_cons, sum_by_nil. unfold flow, outgoing, incoming. rewrite !decide_False by exact Hj. destruct fail; cbn [negb]; lia. }
  destruct fail; [exact Hno|].
  set (c0 := called_by c (self_id (w_mv w)) 1). destruct (t_exec c0 (tok_of w j) (TTransfer rcv n)) as [[t' e]|] eqn:H; [|exact Hno].
  clear Hno. destruct (t_exec_spec (c0, TTransfer rcv n) _ _ _ (TI_of k j w HI) H) as (HT & _ & _ & Hb & Hs & _).
  rewrite load_tok, funds_tok, sum_by_cons, sum_by_nil. specialize (Hb (self_id (w_mv w))). unfold debit, credit in Hb. cbn [fst snd] in Hb. unfold c0 in Hb. cbn [called_by c_pred] in Hb.
  rewrite (decide_False _ _ (P := rcv = self_id (w_mv w))) in Hb by exact P1. rewrite decide_True in Hb by reflexivity.
  unfold flow, outgoing, incoming. destruct (decide (j = k)) as [->|Hne].
  - rewrite decide_True by (apply P3; exact Hj). unfold funds. lia.
  - rewrite decide_False; [lia|]. intros E. apply P3 in E. apply Hne. rewrite E in Hj. destruct j, k; cbn in Hj; congruence.
Qed.
Lemma back_exact k w cb src n ok c ans : WI k w ->
  load k w + flow (self_id (w_mv w)) k (PBack cb src n ok) <= funds k w ->
  exact_run k w (PBack cb src n ok) (run_pend w (PBack cb src n ok) c false ans) 0.
Proof.
  intros HI Hl. cbn [run_pend]. unfold exact_run.
  set (c0 := called_by c (self_id (w_mv w)) 0). set (o := match cb with Mp => AfterMp src n ok | St => AfterSt src n ok end).
  unfold step. cbn [fst snd]. destruct (exec c0 (w_mv w) o) as [[s' e]|] eqn:H.
  - assert (Ew : w <| w_mv := s' |> = w <| w_mv := s' |> <| w_pend := w_pend w ++ [] |>) by (rewrite app_nil_r; destruct w; reflexivity).
    pose proof (exec_consts _ _ _ _ _ H) as Ec. apply consts_of in Ec as [Ec _]. rewrite Ew, load_mv, funds_mv, sum_by_nil by exact Ec. unfold load.
    pose proof (mv_exact k (c0, o) _ _ _ (wi_mb _ _ HI) ltac:(destruct k, cb; reflexivity) ltac:(destruct cb; reflexivity) H) as Ho.
    assert (Ee : e = []) by (destruct cb; cbn [o exec] in H; apply noeff_Ok in H as [_ ->]; reflexivity). subst e.
    assert (E0 : sent k [] = 0) by (destruct k; reflexivity). rewrite E0 in Ho.
    enough (received k (w_mv w) (c0, o) = flow (self_id (w_mv w)) k (PBack cb src n ok)) by lia.
    unfold flow, outgoing, incoming, received, mp_received, st_received, o. cbn [fst snd]. destruct k, cb, ok; rewrite ?decide_True, ?decide_False by congruence; lia.
  - replace (w <| w_mv := w_mv w |>) with w by (destruct w; reflexivity).
    enough (flow (self_id (w_mv w)) k (PBack cb src n ok) = 0) by lia.
    unfold flow, outgoing, incoming in *. destruct ok; [reflexivity|]. destruct (decide (cb = k)) as [->|]; [|lia].
    destruct (N.eq_dec n 0) as [->|Hn]; [reflexivity|]. exfalso.
    pose proof (bal_le _ (self_id (w_mv w)) (TI_of k k w HI)) as Hb. destruct (TI_of k k w HI) as (_ & _ & Hs). unfold funds in Hl. destruct k; cbn [tok_of] in *; subst o; cbn beta iota in H.
    + pose proof (raw_le _ src (proj1 (wi_mb _ _ HI))) as Hr. assert (load Mp w >= mp_owed (w_mv w)) by (unfold load; cbn [owed]; lia).
      destruct (c07_restore c0 (w_mv w) src n) as (s' & Hx & _); [reflexivity|reflexivity|change (2 ^ 128) with U128_SIZE; lia|]. congruence.
    + assert (load St w >= uncl_st (w_mv w)) by (unfold load; cbn; lia). destruct (wi_mb _ _ HI) as [_ [_ HC]].
      pose proof (add_st_fwd (w_mv w) src n HC ltac:(lia) ltac:(lia)) as Hx. cbn [exec] in H. unfold after_transfer_stnear_callback, assert_private, non_payable in H.
      unfold c0 in H. cbn [called_by c_pred c_deposit] in H. rewrite bool_decide_true in H by reflexivity. cbn [N.eqb require mbind res_bind] in H. rewrite Hx in H. discriminate H.
Qed.
Lemma run_exact k w p c fail ans i w0 : WI k w -> psnd (self_id (w_mv w)) p ->
  pok (self_id (w_mv w)) (t_self (w_mp w)) (t_self (tok_of w k)) k p ->
  load k w + flow (self_id (w_mv w)) k p <= funds k w -> w_pend w0 !! i = Some p -> self_id (w_mv w0) = self_id (w_mv w) ->
  exact_run k w p (run_pend w p c fail ans) (stranded k w0 (ERun i c fail ans)).
Proof.
  intros HI Hs Hp Hl Hi Es. assert (E0 : fail = false -> stranded k w0 (ERun i c fail ans) = 0) by (intros ->; reflexivity).
  destruct p as [j sn r n msg|j sn r n res|cb tok src rcv n|cb src n ok].
  - assert (E : stranded k w0 (ERun i c fail ans) = 0) by (cbn [stranded]; rewrite Hi; destruct fail; reflexivity). rewrite E.
    destruct (deliver_exact k w j sn r n msg c fail ans HI) as [H|H]; [exact H|apply deliver_other; exact H].
  - destruct fail; [|rewrite E0 by reflexivity; apply resolve_exact; assumption]. cbn [stranded]. rewrite Hi. unfold exact_run. cbn [run_pend].
    unfold flow, outgoing, incoming. rewrite Es. case_decide; lia.
  - assert (E : stranded k w0 (ERun i c fail ans) = 0) by (cbn [stranded]; rewrite Hi; destruct fail; reflexivity). rewrite E. apply pay_exact; assumption.
  - destruct fail; [|rewrite E0 by reflexivity; apply back_exact; assumption]. cbn [stranded]. rewrite Hi. unfold exact_run. cbn [run_pend].
    unfold flow, outgoing, incoming. destruct ok; [lia|]. case_decide; lia.
Qed.
Lemma calm_imp k w0 x : calm k w0 (EMv x) -> imp k x = 0 /\ (k = Mp -> imports x = false).
Proof.
  destruct k; cbn [calm imp]; intros H; [|split; [reflexivity|discriminate]]. destruct H as [_ H]. cbn [no_import] in H. split; [|intros _; exact H].
  unfold imports, import_in in *. destruct (x.2); try reflexivity; discriminate H.
Qed.
Lemma wstep_exact k w w0 ev : wready k w -> senders w -> calm k w0 ev -> exact_move k w (wstep w ev) (left_over k w ev).
Proof.
  intros [HI Hl] Hs Hc. unfold left_over. destruct ev as [x|j x|i c fail ans].
  - destruct (calm_imp _ _ _ Hc) as [H1 H2]. apply ev_mv_exact; assumption.
  - cbn [stranded]. rewrite N.add_0_r. apply ev_tok_exact. exact HI.
  - change (given k w (ERun i c fail ans)) with 0. rewrite N.add_0_l. cbn [wstep]. destruct (w_pend w !! i) as [p|] eqn:Hp.
    2:{ unfold exact_move. cbn [stranded]. rewrite Hp. destruct fail; lia. }
    set (w1 := w <| w_pend := delete i (w_pend w) |>).
    pose proof (sum_by_delete (flow (self_id (w_mv w)) k) _ _ _ Hp) as Hd.
    assert (E1 : load k w1 + flow (self_id (w_mv w)) k p = load k w) by (unfold load; cbn; lia).
    assert (E2 : funds k w1 = funds k w) by (destruct k; reflexivity).
    assert (HI1 : WI k w1).
    { pose proof HI as [H1 H2 H3 H4 H5 H6]. split; try assumption. unfold poks in *. cbn. apply List.Forall_forall. intros q Hq.
      rewrite List.Forall_forall in H5. apply H5. apply elem_of_list_In. apply elem_of_list_In in Hq.
      eapply (elem_of_submseteq (delete i (w_pend w))); [exact Hq|]. apply sublist_submseteq, sublist_delete. }
    assert (Hsn : psnd (self_id (w_mv w)) p) by (unfold senders in Hs; rewrite Forall_forall in Hs; apply Hs; eapply elem_of_list_lookup_2; exact Hp).
    pose proof (pok_at _ _ _ _ HI Hp) as Hpok.
    pose proof (run_exact k w1 p c fail ans i w HI1 Hsn ltac:(destruct k; exact Hpok) ltac:(change (self_id (w_mv w1)) with (self_id (w_mv w)); lia) Hp eq_refl) as H.
    unfold exact_run in H. unfold exact_move. change (self_id (w_mv w1)) with (self_id (w_mv w)) in H. lia.
Qed.
Lemma senders_step w ev : self_id (w_mv (wstep w ev)) = self_id (w_mv w) -> senders w -> senders (wstep w ev).
Proof.
  intros E Hs. unfold senders in *. rewrite E. clear E. set (mv := self_id (w_mv w)) in *. destruct ev as [x|j [c o]|i c fail ans]; cbn [wstep].
  - destruct (is_contract _ _); [exact Hs|]. destruct (exec _ _ _) as [[s' e]|]; [|exact Hs]. cbn [w_pend set]. apply Forall_app. split; [exact Hs|].
    apply List.Forall_forall. intros p Hp. apply in_map_iff in Hp as ([] & <- & _); exact I.
  - cbn [fst snd]. destruct (is_contract w (c_pred c)) eqn:Hc; [exact Hs|]. destruct (t_exec c (tok_of w j) o) as [[t' e]|] eqn:H; [|exact Hs].
    assert (Ep : w_pend (set_tok w j t' <| w_pend := w_pend w ++ map (tpend_of j) e |>) = w_pend w ++ map (tpend_of j) e) by reflexivity.
    rewrite Ep. apply Forall_app. split; [exact Hs|]. apply not_contract in Hc as [Hc _].
    destruct o; cbn [t_exec] in H; try (apply bind_Ok in H as (t1 & H & E); injection E as <- <-); cbn [map]; repeat constructor. exact Hc.
  - destruct (w_pend w !! i) as [p|] eqn:Hp; [|exact Hs].
    assert (Hp1 : psnd mv p) by (rewrite Forall_forall in Hs; apply Hs; eapply elem_of_list_lookup_2; exact Hp).
    set (w1 := w <| w_pend := delete i (w_pend w) |>).
    assert (Hd : Forall (psnd mv) (w_pend w1)).
    { apply List.Forall_forall. intros q Hq. rewrite List.Forall_forall in Hs. apply Hs. apply elem_of_list_In. apply elem_of_list_In in Hq.
      eapply (elem_of_submseteq (delete i (w_pend w))); [exact Hq|]. apply sublist_submseteq, sublist_delete. }
    assert (Hadd : forall w' q, psnd mv q -> w_pend w' = w_pend w1 ++ [q] -> Forall (psnd mv) (w_pend w')).
    { intros w' q Hq ->. apply Forall_app. split; [exact Hd|]. repeat constructor. exact Hq. }
    destruct p as [j sn r n msg|j sn r n res|cb tok src rcv n|cb src n ok]; cbn [run_pend].
    + case_bool_decide; [|eapply (Hadd _ (PResolve j sn r n ans)); [exact Hp1|reflexivity]]. destruct fail; [eapply (Hadd _ (PResolve j sn r n None)); [exact Hp1|reflexivity]|].
      destruct (ft_on_transfer _ _ _ _ _) as [[s' u]|]; [eapply (Hadd _ (PResolve j sn r n (Some u))); [exact Hp1|reflexivity]|eapply (Hadd _ (PResolve j sn r n None)); [exact Hp1|reflexivity]].
    + destruct fail; [exact Hd|]. destruct j; exact Hd.
    + assert (Hb : forall ok, Forall (psnd mv) (w_pend (w1 <| w_pend := w_pend w1 ++ [PBack cb src n ok] |>))) by (intros ok; eapply (Hadd _ (PBack cb src n ok)); [exact I|reflexivity]).
      destruct (if bool_decide _ then _ else _) as [j|]; [|apply Hb]. destruct fail; [apply Hb|]. destruct (t_exec _ _ _) as [[t' e]|]; [|apply Hb].
      eapply (Hadd _ (PBack cb src n true)); [exact I|reflexivity].
    + destruct fail; exact Hd.
Qed.
Lemma wrun_snoc w evs ev : wrun w (evs ++ [ev]) = wstep (wrun w evs) ev.
Proof. unfold wrun. rewrite fold_left_app. reflexivity. Qed.
Lemma over_run_app f evs : forall w evs', over_run f w (evs ++ evs') = over_run f w evs + over_run f (wrun w evs) evs'.
Proof. induction evs as [|ev evs IH]; intros w evs'; [reflexivity|]. cbn [over_run app wrun fold_left]. rewrite IH. unfold wrun. lia. Qed.
Lemma over_run_add f g evs : forall w, over_run (fun w ev => f w ev + g w ev) w evs = over_run f w evs + over_run g w evs.
Proof. induction evs as [|ev evs IH]; intros w; [reflexivity|]. cbn [over_run]. rewrite IH. lia. Qed.
Lemma self_kept k w0 evs : wstart w0 -> Forall (calm k w0) evs -> wconst (wrun w0 evs) = wconst w0.
Proof.
  intros Hs Hg. destruct (wstart_WI k _ Hs) as [HI _]. destruct (wrun_move k evs w0 HI) as (_ & H & _); [|exact H].
  eapply List.Forall_impl; [|exact Hg]. apply calm_good.
Qed.
Lemma w_senders k w0 evs : wstart w0 -> Forall (calm k w0) evs -> senders (wrun w0 evs).
Proof.
  intros Hs. induction evs as [|ev evs IH] using rev_ind; intros Hg.
  - destruct Hs as (a & o1 & n1 & m1 & o2 & n2 & m2 & _ & Hp & _). unfold senders, wrun. cbn. rewrite Hp. constructor.
  - pose proof Hg as Hg2. apply Forall_app in Hg as [Hg _]. specialize (IH Hg). rewrite wrun_snoc. apply senders_step; [|exact IH].
    pose proof (self_kept k w0 _ Hs Hg2) as E1. pose proof (self_kept k w0 _ Hs Hg) as E2. rewrite wrun_snoc in E1. unfold wconst in *. congruence.
Qed.
Lemma c84_accounted k w0 evs : wstart w0 -> Forall (calm k w0) evs ->
  funds k (wrun w0 evs) = owed k (w_mv (wrun w0 evs)) + out_flight k (wrun w0 evs) + in_flight k (wrun w0 evs)
    + funds k w0 + over_run (given k) w0 evs + over_run (stranded k) w0 evs.
Proof.
  intros Hs Hg. rewrite <- load_eq, <- (N.add_assoc _ (over_run _ _ _)), <- over_run_add. change (fun w ev => given k w ev + stranded k w ev) with (left_over k).
  induction evs as [|ev evs IH] using rev_ind.
  - destruct (wstart_WI k _ Hs) as [_ E]. cbn [wrun fold_left over_run]. lia.
  - apply Forall_app in Hg as [Hg Hg1]. apply Forall_cons in Hg1 as [Hg1 _]. specialize (IH Hg). rewrite wrun_snoc, over_run_app. cbn [over_run].
    pose proof (wstep_exact k (wrun w0 evs) w0 ev (w_ready k w0 evs Hs Hg) (w_senders k w0 evs Hs Hg) Hg1) as H. unfold exact_move in H. lia.
Qed.

(** *** What becomes of a transfer and of a deposit *)
Lemma calm_run k w0 i c fail ans : calm k w0 (ERun i c fail ans).
Proof. destruct k; cbn [calm]; [split; exact I|exact I]. Qed.
Lemma last_app {A} (l : list A) i x y : l !! i = Some x -> (delete i l ++ [y]) !! Nat.pred (length l) = Some y.
Proof.
  intros H. pose proof (lookup_lt_Some _ _ _ H). rewrite lookup_app_r by (rewrite length_delete by eauto; lia). rewrite length_delete by eauto.
  replace (Nat.pred (length l) - (length l - 1))%nat with 0%nat by lia. reflexivity.
Qed.
Lemma delete_last {A} (l : list A) i x y : l !! i = Some x -> delete (Nat.pred (length l)) (delete i l ++ [y]) = delete i l.
Proof.
  intros H. pose proof (lookup_lt_Some _ _ _ H).
  assert (E : Nat.pred (length l) = (length (delete i l) + 0)%nat) by (rewrite length_delete by eauto; lia). rewrite E.
  assert (G : forall (m : list A), delete (length m + 0)%nat (m ++ [y]) = m) by (induction m as [|z m IH]; [reflexivity|]; cbn; f_equal; exact IH). apply G.
Qed.
Lemma pay_outcome k w i tok src rcv n c fail ans : wready k w -> w_pend w !! i = Some (PPay k tok src rcv n) ->
  let w' := wstep w (ERun i c fail ans) in
  w_mv w' = w_mv w /\
  ((w_pend w' = delete i (w_pend w) ++ [PBack k src n true] /\ ft_balance_of (tok_of w' k) rcv = ft_balance_of (tok_of w k) rcv + n /\ fail = false) \/
   (w_pend w' = delete i (w_pend w) ++ [PBack k src n false] /\ tok_of w' k = tok_of w k)).
Proof.
  intros [HI _] Hp w'. pose proof (pok_at _ _ _ _ HI Hp) as (P1 & _ & P3).
  assert (Ht : tok = t_self (tok_of w k)) by (apply P3; reflexivity). destruct (wi_ids _ _ HI) as (_ & _ & _ & I4).
  unfold w'. cbn [wstep]. rewrite Hp. cbn [run_pend]. set (w1 := w <| w_pend := delete i (w_pend w) |>).
  assert (E1 : w_mv w1 = w_mv w) by reflexivity. assert (E2 : forall j, tok_of w1 j = tok_of w j) by (intros []; reflexivity).
  assert (E3 : w_pend w1 = delete i (w_pend w)) by reflexivity. change (w_mp w1) with (w_mp w). change (w_st w1) with (w_st w).
  assert (Ej : (if bool_decide (tok = t_self (w_mp w)) then Some Mp else if bool_decide (tok = t_self (w_st w)) then Some St else None) = Some k).
  { rewrite Ht. destruct k; cbn [tok_of]; [rewrite bool_decide_true by reflexivity; reflexivity|].
    rewrite bool_decide_false by congruence. rewrite bool_decide_true by reflexivity. reflexivity. }
  rewrite Ej, E1, E2.
  assert (Hno : w_mv (w1 <| w_pend := w_pend w1 ++ [PBack k src n false] |>) = w_mv w /\
    w_pend (w1 <| w_pend := w_pend w1 ++ [PBack k src n false] |>) = delete i (w_pend w) ++ [PBack k src n false] /\
    tok_of (w1 <| w_pend := w_pend w1 ++ [PBack k src n false] |>) k = tok_of w k) by (split; [reflexivity|]; split; [reflexivity|destruct k; reflexivity]).
  destruct fail; [split; [apply Hno|right; apply Hno]|].
  set (c0 := called_by c (self_id (w_mv w)) 1). destruct (t_exec c0 (tok_of w k) (TTransfer rcv n)) as [[t' e]|] eqn:H; [|split; [apply Hno|right; apply Hno]].
  destruct (t_exec_spec (c0, TTransfer rcv n) _ _ _ (TI_of k k w HI) H) as (_ & _ & _ & Hb & _). specialize (Hb rcv).
  unfold debit, credit, c0 in Hb. cbn [fst snd called_by c_pred] in Hb. rewrite decide_False in Hb by congruence. rewrite decide_True in Hb by reflexivity.
  split; [destruct k; reflexivity|]. left. split; [destruct k; reflexivity|]. split; [|reflexivity].
  assert (Et : tok_of (set_tok w1 k t' <| w_pend := w_pend w1 ++ [PBack k src n true] |>) k = t') by (destruct k; reflexivity). rewrite Et. lia.
Qed.
Definition books (k : tk) (s : state) (a : string) : N := match k with Mp => raw_balance s a | St => get_claimable_stnear s a end.
Lemma back_done k w i src n c ans : w_pend w !! i = Some (PBack k src n true) ->
  let w' := wstep w (ERun i c false ans) in
  w_pend w' = delete i (w_pend w) /\ w_mv w' = w_mv w /\ (forall j, tok_of w' j = tok_of w j).
Proof.
  intros Hp w'. unfold w'. cbn [wstep]. rewrite Hp. cbn [run_pend]. split; [reflexivity|]. split; [|intros []; reflexivity].
  change (w_mv (w <| w_pend := delete i (w_pend w) |>)) with (w_mv w). cbn [w_mv set]. unfold step. cbn [fst snd].
  destruct k; cbn [exec]; [unfold after_transfer_mpdao_callback|unfold after_transfer_stnear_callback]; unfold assert_private, non_payable;
    cbn [called_by c_pred c_deposit]; rewrite bool_decide_true by reflexivity; cbn [N.eqb require mbind res_bind noeff]; reflexivity.
Qed.
Lemma back_undone k w i src n c ans : wready k w -> w_pend w !! i = Some (PBack k src n false) ->
  let w' := wstep w (ERun i c false ans) in
  w_pend w' = delete i (w_pend w) /\ books k (w_mv w') src = books k (w_mv w) src + n /\ (forall j, tok_of w' j = tok_of w j).
Proof.
  intros HR Hp w'. assert (Ht : forall j, tok_of w' j = tok_of w j) by (intros j; unfold w'; cbn [wstep]; rewrite Hp; destruct j; reflexivity).
  destruct k; cbn [books].
  - destruct (w_restore_mp w i src n c ans HR Hp) as [H1 H2]. split; [exact H1|]. split; [exact H2|exact Ht].
  - destruct (N.eq_dec n 0) as [->|Hn].
    + split; [unfold w'; cbn [wstep]; rewrite Hp; reflexivity|]. split; [|exact Ht]. rewrite N.add_0_r. unfold w'. cbn [wstep]. rewrite Hp. cbn [run_pend].
      change (w_mv (w <| w_pend := delete i (w_pend w) |>)) with (w_mv w). cbn [w_mv set]. unfold step. cbn [fst snd].
      destruct (exec _ _ _) as [[s' e]|] eqn:E; [|reflexivity]. cbn [exec] in E. apply noeff_Ok in E as [E _]. unfold after_transfer_stnear_callback in E.
      apply bind_Ok in E as (? & _ & E). apply bind_Ok in E as (? & _ & E). apply add_claimable_stnear_inv in E as (_ & _ & _ & ->).
      unfold get_claimable_stnear. cbn. rewrite om_get_set_eq. cbn. destruct (om_get (claim_st (w_mv w)) src); cbn; unfold Datatypes.id; lia.
    + destruct (w_restore_st w i src n c ans HR Hp ltac:(lia)) as [H1 H2]. split; [exact H1|]. split; [exact H2|exact Ht].
Qed.
Lemma c84_transfer k w0 evs i tok src rcv n c fail ans c' ans' : wstart w0 -> Forall (calm k w0) evs ->
  let w := wrun w0 evs in
  w_pend w !! i = Some (PPay k tok src rcv n) ->
  let w' := wrun w [ERun i c fail ans; ERun (Nat.pred (length (w_pend w))) c' false ans'] in
  w_pend w' = delete i (w_pend w) /\
  ((ft_balance_of (tok_of w' k) rcv = ft_balance_of (tok_of w k) rcv + n /\ w_mv w' = w_mv w) \/
   (books k (w_mv w') src = books k (w_mv w) src + n /\ tok_of w' k = tok_of w k)).
Proof.
  intros Hs Hg w Hp w'. pose proof (w_ready k w0 evs Hs Hg) as HR. fold w in HR. unfold w'. cbn [wrun fold_left].
  pose proof (pay_outcome k w i tok src rcv n c fail ans HR Hp) as HO. cbv zeta in HO.
  assert (HR1 : wready k (wstep w (ERun i c fail ans))).
  { unfold w. rewrite <- wrun_snoc. apply w_ready; [exact Hs|]. apply Forall_app. split; [exact Hg|]. repeat constructor. apply calm_run. }
  set (w1 := wstep w (ERun i c fail ans)) in *. destruct HO as [Em [(Ep & Eb & _)|(Ep & Et)]].
  - assert (Hl : w_pend w1 !! Nat.pred (length (w_pend w)) = Some (PBack k src n true)) by (rewrite Ep; eapply last_app; exact Hp).
    destruct (back_done k w1 _ src n c' ans' Hl) as (B1 & B2 & B3). split; [rewrite B1, Ep; eapply delete_last; exact Hp|]. left. rewrite B3, B2. split; [exact Eb|exact Em].
  - assert (Hl : w_pend w1 !! Nat.pred (length (w_pend w)) = Some (PBack k src n false)) by (rewrite Ep; eapply last_app; exact Hp).
    destruct (back_undone k w1 _ src n c' ans' HR1 Hl) as (B1 & B2 & B3). split; [rewrite B1, Ep; eapply delete_last; exact Hp|]. right. rewrite B3, B2, Em. split; [reflexivity|exact Et].
Qed.
Lemma deliver_outcome k w i sn n msg c fail ans : wready k w -> w_pend w !! i = Some (PDeliver k sn (self_id (w_mv w)) n msg) ->
  let w' := wstep w (ERun i c fail ans) in
  (forall j, tok_of w' j = tok_of w j) /\
  ((w_pend w' = delete i (w_pend w) ++ [PResolve k sn (self_id (w_mv w)) n (Some 0)] /\ owed k (w_mv w') = owed k (w_mv w) + n) \/
   (w_pend w' = delete i (w_pend w) ++ [PResolve k sn (self_id (w_mv w)) n None] /\ w_mv w' = w_mv w)).
Proof.
  intros [HI Hl] Hp w'. unfold w'. cbn [wstep]. rewrite Hp. cbn [run_pend]. set (w1 := w <| w_pend := delete i (w_pend w) |>).
  assert (E1 : w_mv w1 = w_mv w) by reflexivity. assert (E2 : forall j, tok_of w1 j = tok_of w j) by (intros []; reflexivity). rewrite E1, E2.
  rewrite bool_decide_true by reflexivity.
  destruct fail; [split; [intros []; reflexivity|right; split; reflexivity]|].
  destruct (ft_on_transfer _ _ _ _ _) as [[s' u]|] eqn:Hf; [|split; [intros []; reflexivity|right; split; reflexivity]].
  pose proof (c37_consumed _ _ _ _ _ _ _ Hf) as ->. split; [intros []; reflexivity|]. left. split; [reflexivity|].
  set (c0 := called_by c (t_self (tok_of w k)) 0) in *.
  assert (H : exec c0 (w_mv w) (FtOnTransfer sn n msg) = Ok (s', [])) by (cbn [exec]; rewrite Hf; reflexivity).
  pose proof (mv_exact k (c0, FtOnTransfer sn n msg) _ _ _ (wi_mb _ _ HI) ltac:(destruct k; reflexivity) eq_refl H) as Ho.
  assert (E0 : sent k [] = 0) by (destruct k; reflexivity). rewrite E0 in Ho.
  change (owed k s' = owed k (w_mv w) + n). enough (received k (w_mv w) (c0, FtOnTransfer sn n msg) = n) by lia.
  destruct (wi_ids _ _ HI) as (I1 & _ & _ & I4). pose proof (wi_stnear _ _ HI) as Hst.
  unfold received, mp_received, st_received, c0. cbn [fst snd called_by c_pred]. rewrite I1. destruct k; cbn [tok_of] in *.
  - rewrite decide_True by reflexivity. reflexivity.
  - rewrite decide_False by congruence. rewrite decide_True by (symmetry; apply Hst; reflexivity). reflexivity.
Qed.
Lemma resolve_none w k i sn r n c ans : TI (tok_of w k) -> w_pend w !! i = Some (PResolve k sn r n (Some 0)) ->
  let w' := wstep w (ERun i c false ans) in w_pend w' = delete i (w_pend w) /\ w_mv w' = w_mv w /\ tok_of w' k = tok_of w k.
Proof.
  intros HT Hp w'. unfold w'. cbn [wstep]. rewrite Hp. cbn [run_pend]. set (w1 := w <| w_pend := delete i (w_pend w) |>).
  assert (E2 : forall j, tok_of w1 j = tok_of w j) by (intros []; reflexivity). rewrite E2.
  assert (Ht : t_step (tok_of w k) (called_by c (t_self (tok_of w k)) 0, TResolve sn r n (Some 0)) = tok_of w k).
  { unfold t_step. cbn [fst snd t_exec]. unfold noteff, non_payable, assert_private. cbn [called_by c_pred c_deposit]. rewrite bool_decide_true by reflexivity.
    cbn [N.eqb require mbind res_bind]. unfold t_resolve. rewrite N.min_0_r. reflexivity. }
  rewrite Ht. split; [destruct k; reflexivity|]. split; [destruct k; reflexivity|]. destruct k; reflexivity.
Qed.
Lemma c84_deposit k w0 evs i sn n msg c fail ans c' ans' : wstart w0 -> Forall (calm k w0) evs ->
  let w := wrun w0 evs in
  w_pend w !! i = Some (PDeliver k sn (self_id (w_mv w)) n msg) -> t_registered (tok_of w k) sn = true ->
  let w' := wrun w [ERun i c fail ans; ERun (Nat.pred (length (w_pend w))) c' false ans'] in
  w_pend w' = delete i (w_pend w) /\
  ((owed k (w_mv w') = owed k (w_mv w) + n /\ tok_of w' k = tok_of w k) \/
   (ft_balance_of (tok_of w' k) sn = ft_balance_of (tok_of w k) sn + n /\ funds k w' + n = funds k w /\ w_mv w' = w_mv w)).
Proof.
  intros Hs Hg w Hp Hr w'. pose proof (w_ready k w0 evs Hs Hg) as HR. fold w in HR. unfold w'. cbn [wrun fold_left].
  pose proof (deliver_outcome k w i sn n msg c fail ans HR Hp) as HO. cbv zeta in HO.
  assert (Hg1 : Forall (calm k w0) (evs ++ [ERun i c fail ans])) by (apply Forall_app; split; [exact Hg|]; repeat constructor; apply calm_run).
  assert (HR1 : wready k (wstep w (ERun i c fail ans))) by (unfold w; rewrite <- wrun_snoc; apply w_ready; assumption).
  assert (Hsn : sn <> self_id (w_mv w)).
  { pose proof (w_senders k w0 evs Hs Hg) as H. fold w in H. unfold senders in H. rewrite Forall_forall in H. apply (H _ (elem_of_list_lookup_2 _ _ _ Hp)). }
  set (w1 := wstep w (ERun i c fail ans)) in *. destruct HO as [Et [(Ep & Eo)|(Ep & Em)]].
  - assert (Hl : w_pend w1 !! Nat.pred (length (w_pend w)) = Some (PResolve k sn (self_id (w_mv w)) n (Some 0))) by (rewrite Ep; eapply last_app; exact Hp).
    destruct (resolve_none w1 k _ _ _ _ c' ans' (TI_of k k w1 (proj1 HR1)) Hl) as (B1 & B2 & B3).
    split; [rewrite B1, Ep; eapply delete_last; exact Hp|]. left. rewrite B2, B3. split; [exact Eo|apply Et].
  - assert (Hl : w_pend w1 !! Nat.pred (length (w_pend w)) = Some (PResolve k sn (self_id (w_mv w1)) n None)) by (rewrite Ep, Em; eapply last_app; exact Hp).
    destruct (w_refund k w1 _ sn n c' ans' HR1 Hl) as (B1 & B2 & B3 & B4); [rewrite Em; exact Hsn|rewrite Et; exact Hr|].
    split; [rewrite B1, Ep; eapply delete_last; exact Hp|]. right. rewrite Et in B3. split; [exact B3|]. split; [|congruence].
    assert (Ef : funds k w1 = funds k w) by (unfold funds; rewrite Et, Em; reflexivity). lia.
Qed.

Definition surplus (k : tk) (w : world) : N := funds k w - (owed k (w_mv w) + out_flight k w + in_flight k w).
Lemma wrun_app w evs evs' : wrun w (evs ++ evs') = wrun (wrun w evs) evs'.
Proof. unfold wrun. apply fold_left_app. Qed.
Lemma c84_surplus k w0 evs evs' : wstart w0 -> Forall (calm k w0) (evs ++ evs') ->
  surplus k (wrun w0 (evs ++ evs')) = surplus k (wrun w0 evs) + over_run (given k) (wrun w0 evs) evs' + over_run (stranded k) (wrun w0 evs) evs'.
Proof.
  intros Hs Hg. pose proof (c84_accounted k w0 _ Hs Hg) as H1. apply Forall_app in Hg as [Hg _]. pose proof (c84_accounted k w0 _ Hs Hg) as H2.
  rewrite !over_run_app in H1. unfold surplus. lia.
Qed.
(** an execution without plain transfers to the contract and without failing callbacks *)
Definition tidy (mv : string) (ev : wev) : Prop :=
  match ev with ETok _ (_, TTransfer r _) => r <> mv | ERun _ _ fail _ => fail = false | _ => True end.
Lemma tidy_zero k evs : forall w0 evs0, wstart w0 -> Forall (calm k w0) (evs0 ++ evs) -> Forall (tidy (self_id (w_mv w0))) evs ->
  over_run (given k) (wrun w0 evs0) evs = 0 /\ over_run (stranded k) (wrun w0 evs0) evs = 0.
Proof.
  induction evs as [|ev evs IH]; intros w0 evs0 Hs Hg Ht; [split; reflexivity|]. apply Forall_cons in Ht as [Ht Ht2].
  assert (Hg0 : Forall (calm k w0) evs0) by (apply Forall_app in Hg; apply Hg).
  replace (evs0 ++ ev :: evs) with ((evs0 ++ [ev]) ++ evs) in Hg by (rewrite <- app_assoc; reflexivity).
  destruct (IH w0 (evs0 ++ [ev]) Hs Hg Ht2) as [E1 E2]. rewrite wrun_snoc in E1, E2. cbn [over_run]. rewrite E1, E2.
  assert (Es : self_id (w_mv (wrun w0 evs0)) = self_id (w_mv w0)) by (pose proof (self_kept k w0 evs0 Hs Hg0) as E; unfold wconst in E; congruence).
  split.
  - destruct ev as [x|j [c o]|i c fail ans]; try reflexivity. cbn [given]. destruct o; try reflexivity. cbn [tidy] in Ht. rewrite decide_False; [reflexivity|].
    intros [_ E]. apply Ht. congruence.
  - destruct ev as [x|j x|i c fail ans]; try reflexivity. cbn [tidy] in Ht. subst fail. reflexivity.
Qed.
Lemma c84_tidy k w0 evs : wstart w0 -> Forall (calm k w0) evs -> Forall (tidy (self_id (w_mv w0))) evs ->
  funds k (wrun w0 evs) = owed k (w_mv (wrun w0 evs)) + out_flight k (wrun w0 evs) + in_flight k (wrun w0 evs) + funds k w0.
Proof.
  intros Hs Hg Ht. pose proof (c84_accounted k w0 evs Hs Hg) as H. destruct (tidy_zero k evs w0 [] Hs Hg Ht) as [E1 E2]. change (wrun w0 []) with w0 in E1, E2. lia.
Qed.
