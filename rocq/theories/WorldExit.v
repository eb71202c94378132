(** WorldExit.v -- C87: everything an account has in the contract can be brought back to its wallet. *)

From Verif Require Export WorldSafe WorldSmall MVExit.

Lemma contract_same w w' a : wconst w' = wconst w -> is_contract w' a = is_contract w a.
Proof. intros E. unfold wconst in E. unfold is_contract. injection E as -> _ -> ->. reflexivity. Qed.
Lemma start_const k w0 evs : wstart w0 -> Forall (calm k w0) evs -> wconst (wrun w0 evs) = wconst w0.
Proof.
  intros Hs Hg. destruct (wstart_WI k _ Hs) as [HI _]. destruct (wrun_move k evs w0 HI) as (_ & Ec & _); [|exact Ec].
  eapply List.Forall_impl; [|exact Hg]. intros e. apply calm_good.
Qed.
Lemma heard_calls (l : list call) : forall w, Forall (fun x => is_contract w (c_pred x.1) = false) l ->
  (forall evs, wconst (wrun w (firstn evs (map EMv l))) = wconst w) -> heard w (map EMv l) = l.
Proof.
  induction l as [|x l IH]; intros w Hl Hc; [reflexivity|]. apply Forall_cons in Hl as [Hx Hl]. cbn [map heard heard_at]. rewrite Hx. cbn [app]. f_equal.
  pose proof (Hc 1%nat) as H1. cbn in H1. apply IH.
  - eapply List.Forall_impl; [|exact Hl]. intros y Hy. cbn beta. rewrite (contract_same _ _ _ H1). exact Hy.
  - intros n. specialize (Hc (S n)). cbn [map firstn] in Hc. change (wrun w (EMv x :: firstn n (map EMv l))) with (wrun (wstep w (EMv x)) (firstn n (map EMv l))) in Hc.
    rewrite Hc. symmetry. exact H1.
Qed.
Lemma owned_le s a : NoDup (voter_ids s) -> raw_balance s a + positions_amount s a <= mp_owed s.
Proof.
  intros Hn. unfold mp_owed. destruct (om_get (voters s) a) as [v|] eqn:E.
  - assert (In a (voter_ids s)) as Hin by (apply elem_of_list_In; eapply om_get_Some_key; exact E).
    pose proof (sum_by_ge_elem (fun vid => raw_balance s vid + positions_amount s vid) _ _ Hin). cbn beta in *. lia.
  - rewrite positions_amount_eq. unfold raw_balance, get_voter. rewrite E. cbn [default new_voter v_lps v_bal]. rewrite sum_by_nil. lia.
Qed.

Lemma c87_exit w0 evs a t : wstart w0 -> Forall (calm Mp w0) evs -> is_contract w0 a = false ->
  let h := heard w0 evs in collision_free h -> no_zero_votes h -> along (own_unlocks_locked a) (w_mv w0) h -> Forall (fun x : call => c_ts x.1 <= t) h ->
  let w := wrun w0 evs in (forall ad ob, ~ lock_in_applies (w_mv w) (t / 1000000) ad ob) ->
  let owned := raw_balance (w_mv w) a + positions_amount (w_mv w) a in 0 < owned ->
  exists l, Forall (exit_call a t) l /\ along succeeds (w_mv w) l /\
    let w1 := wrun w (map EMv l) in
    forall evs2 c c' ans, Forall (calm Mp w0) evs2 -> Forall (fun x => call_target x <> a) (heard w1 evs2) ->
      let w2 := wrun w1 evs2 in t_registered (w_mp w2) a = true -> c_pred c = a -> c_deposit c = 1 -> t + days_3600 <= c_ts c ->
      let w3 := wrun w2 [EMv (c, WithdrawAll); ERun (length (w_pend w2)) c' false ans] in
      ft_balance_of (w_mp w3) a = ft_balance_of (w_mp w2) a + owned /\ a ∉ voter_ids (w_mv w3).
Proof.
  intros Hs Hg Ha h Hcf Hnz Hu Ht w Hl owned Ho.
  assert (Ew : w_mv w = run (w_mv w0) h) by apply heard_run. pose proof Hs as (ia & _ & _ & _ & _ & _ & _ & Hi & _).
  pose proof (w_ready Mp w0 evs Hs Hg) as HR. fold w in HR.
  assert (Hof : owned < 2 ^ 128).
  { pose proof (fits_ready Mp w HR) as Hf. unfold fits_back in Hf. pose proof (owned_le (w_mv w) a (proj1 (wi_mb _ _ (proj1 HR)))). cbn [owed] in Hf. lia. }
  rewrite Ew in Hl. subst owned. rewrite Ew in Ho, Hof |- *.
  destruct (exit_possible ia (w_mv w0) h a t Hi Hcf Hnz Hu Ht Hl (conj Ho Hof)) as (l & Hel & Hsu & Hex).
  exists l. split; [exact Hel|]. split; [exact Hsu|]. intros w1 evs2 c c' ans Hg2 Hm w2 Hr Hp Hd Hts w3.
  assert (Hg1 : Forall (calm Mp w0) (evs ++ map EMv l)).
  { apply Forall_app. split; [exact Hg|]. apply Forall_forall. intros ev Hev. apply elem_of_list_fmap in Hev as (x & -> & Hx). rewrite Forall_forall in Hel.
    destruct (Hel x Hx) as [_ [(ad & ob & E)|(i & E)]]; destruct x as [cc oo]; cbn in E; subst oo; cbn; auto. }
  assert (Hg12 : Forall (calm Mp w0) ((evs ++ map EMv l) ++ evs2)) by (apply Forall_app; split; assumption).
  assert (E1 : w1 = wrun w0 (evs ++ map EMv l)) by (unfold w1, w, wrun; rewrite fold_left_app; reflexivity).
  assert (E2 : w2 = wrun w0 ((evs ++ map EMv l) ++ evs2)) by (unfold w2; rewrite E1; unfold wrun; rewrite !fold_left_app; reflexivity).
  assert (Hh : heard w (map EMv l) = l).
  { apply heard_calls.
    - eapply List.Forall_impl; [|exact Hel]. intros x [Hx _]. cbn beta. rewrite Hx. cbn. rewrite (contract_same w0); [exact Ha|]. apply (start_const Mp); assumption.
    - intros n. change (wrun w (firstn n (map EMv l))) with (fold_left wstep (firstn n (map EMv l)) w). unfold w at 1. unfold wrun at 1. rewrite <- fold_left_app.
      fold (wrun w0 (evs ++ firstn n (map EMv l))). unfold w. rewrite !(start_const Mp); auto. apply Forall_app in Hg1 as [_ G]. apply Forall_app. split; [exact Hg|]. apply Forall_take. exact G. }
  assert (Em1 : w_mv w1 = run (run (w_mv w0) h) l) by (unfold w1; rewrite heard_run, Hh, Ew; reflexivity).
  assert (Em2 : w_mv w2 = run (run (w_mv w0) h) (l ++ heard w1 evs2)) by (unfold w2; rewrite heard_run, Em1, run_app; reflexivity).
  destruct (Hex _ c Hm Hp Hd Hts) as (s' & Hx & Hout). rewrite <- Em2 in Hx.
  pose proof (w_ready Mp w0 _ Hs Hg12) as HR2. rewrite <- E2 in HR2.
  assert (Hc2 : is_contract w2 a = false) by (rewrite (contract_same w0); [exact Ha|]; rewrite E2; apply (start_const Mp); assumption).
  set (wa := wstep w2 (EMv (c, WithdrawAll))).
  assert (Ea : wa = w2 <| w_mv := s' |> <| w_pend := w_pend w2 ++ [PPay Mp (mpdao_addr (w_mv w2)) a a (raw_balance (run (w_mv w0) h) a + positions_amount (run (w_mv w0) h) a)] |>).
  { unfold wa. cbn [wstep fst snd]. rewrite Hp, Hc2, Hx. reflexivity. }
  assert (HRa : wready Mp wa).
  { unfold wa. rewrite E2. rewrite <- wrun_snoc. apply w_ready; [exact Hs|]. apply Forall_app. split; [exact Hg12|]. constructor; [|constructor]. cbn. auto. }
  assert (Hpa : w_pend wa !! length (w_pend w2) = Some (PPay Mp (mpdao_addr (w_mv w2)) a a (raw_balance (run (w_mv w0) h) a + positions_amount (run (w_mv w0) h) a))).
  { rewrite Ea. cbn [w_pend set]. apply list_lookup_middle. reflexivity. }
  assert (Hra : t_registered (w_mp wa) a = true) by (rewrite Ea; exact Hr).
  destruct (w_funded Mp wa _ _ _ _ _ c' ans HRa Hpa Ho Hra) as (_ & Hmv & Hb & _).
  change w3 with (wstep wa (ERun (length (w_pend w2)) c' false ans)). cbn [tok_of] in Hb. rewrite Hmv. split.
  - etransitivity; [exact Hb|]. rewrite Ea. reflexivity.
  - rewrite Ea. exact Hout.
Qed.

Lemma c87_claim w0 evs a n c c' ans : wstart w0 -> Forall (calm St w0) evs -> is_contract w0 a = false ->
  let w := wrun w0 evs in 0 < n <= get_claimable_stnear (w_mv w) a -> t_registered (w_st w) a = true -> c_pred c = a -> c_deposit c = 0 ->
  let w' := wrun w [EMv (c, ClaimStnear n); ERun (length (w_pend w)) c' false ans] in
  ft_balance_of (w_st w') a = ft_balance_of (w_st w) a + n /\ get_claimable_stnear (w_mv w') a + n = get_claimable_stnear (w_mv w) a.
Proof.
  intros Hs Hg Ha w [Hn Hle] Hr Hp Hd w'. pose proof (w_ready St w0 evs Hs Hg) as HR. fold w in HR. pose proof (wi_mb _ _ (proj1 HR)) as [_ HC].
  destruct (c18_claim_stnear c (w_mv w) n HC Hd) as (s' & Hx); [rewrite Hp; exact Hle|]. rewrite Hp in Hx.
  assert (Hc2 : is_contract w a = false) by (rewrite (contract_same w0); [exact Ha|]; apply (start_const St); assumption).
  set (wa := wstep w (EMv (c, ClaimStnear n))).
  assert (Ea : wa = w <| w_mv := s' |> <| w_pend := w_pend w ++ [PPay St (ci_stnear (get_contract_info (w_mv w))) a a n] |>).
  { unfold wa. cbn [wstep fst snd]. rewrite Hp, Hc2, Hx. reflexivity. }
  assert (HRa : wready St wa).
  { unfold wa, w. rewrite <- wrun_snoc. apply w_ready; [exact Hs|]. apply Forall_app. split; [exact Hg|]. constructor; [|constructor]. exact I. }
  assert (Hpa : w_pend wa !! length (w_pend w) = Some (PPay St (ci_stnear (get_contract_info (w_mv w))) a a n)).
  { rewrite Ea. cbn [w_pend set]. apply list_lookup_middle. reflexivity. }
  assert (Hra : t_registered (w_st wa) a = true) by (rewrite Ea; exact Hr).
  destruct (w_funded St wa _ _ _ _ _ c' ans HRa Hpa Hn Hra) as (_ & Hmv & Hb & _).
  change w' with (wstep wa (ERun (length (w_pend w)) c' false ans)). cbn [tok_of] in Hb. rewrite Hmv. split.
  - etransitivity; [exact Hb|]. rewrite Ea. reflexivity.
  - destruct (claims_step (w_mv w) (c, ClaimStnear n) s' _ HC Hx) as (_ & _ & Hst & _). specialize (Hst a). rewrite Ea. cbn [w_mv set].
    unfold st_claimed, st_given, st_restored, claims_list in Hst. cbn [fst snd] in Hst. rewrite sum_by_cons, sum_by_nil, decide_True in Hst by reflexivity.
    assert (E0 : listed_for a (default [] None) = 0) by reflexivity. rewrite E0 in Hst. repeat case_decide; lia.
Qed.
