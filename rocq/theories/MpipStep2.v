(** MpipStep2.v -- C73: answers, whole histories, and no hidden state. *)

From Verif Require Export MpipStep.

Lemma power_iff a n : user_power_from_promise a = Ok n <->
  exists t l, a = ABytes t (Some l) /\ Forall (fun j => jp_vp j < 2 ^ 128) l /\ n = locked_sum l /\ n < 2 ^ 128.
Proof.
  split.
  - intros H. pose proof H as H'. apply user_power_spec in H' as (t & l & -> & -> & Hn). exists t, l. split; [reflexivity|]. split; [|auto].
    unfold user_power_from_promise in H. cbn [expect mbind res_bind] in H. apply bind_Ok in H as (u & Hu & _). apply require_Ok in Hu.
    apply List.Forall_forall. intros j Hj. rewrite forallb_forall in Hu. apply Hu, N.ltb_lt in Hj. exact Hj.
  - intros (t & l & -> & Hl & -> & Hn). apply user_power_ok; assumption.
Qed.
Lemma total_iff a n : total_from_promise a = Ok n <-> exists l, a = ABytes (Some n) l /\ n < 2 ^ 128.
Proof.
  unfold total_from_promise. split.
  - destruct a as [|t l]; [discriminate|]. intros H. apply bind_Ok in H as (m & Hm & H). apply expect_Ok in Hm as ->.
    apply bind_Ok in H as (u & Hu & H). apply require_Ok, N.ltb_lt in Hu. injection H as <-. exists l. auto.
  - intros (l & -> & Hn). cbn [expect mbind res_bind]. apply N.ltb_lt in Hn. change (2 ^ 128) with U128_SIZE in Hn. rewrite Hn. reflexivity.
Qed.

Section Answer.
Context (w : world) (tr : list mevent) (i : nat) (ts : N) (p : pending) (a : answer).
Hypothesis Hr : mreach w tr.
Hypothesis Hf : few_proposals (w_m w).
Hypothesis Hi : w_pend w !! i = Some p.

Let HV : VI (w_m w) := VI_reach _ _ Hr.
Notation B := (observe w).
Notation now := (ts / 1000000).
Notation cc := (callback_ctx (w_m w) p ts).

Lemma add64_ok x y : x + y < 2 ^ 64 -> add64 x y = Ok (x + y).
Proof. intros H. unfold add64. apply N.ltb_lt in H. change (2 ^ 64) with U64_SIZE in H. rewrite H. reflexivity. Qed.
Lemma mul128_ok x y : x * y < 2 ^ 128 -> mul128 x y = Ok (x * y).
Proof. intros H. unfold mul128. apply N.ltb_lt in H. change (2 ^ 128) with U128_SIZE in H. rewrite H. reflexivity. Qed.

Lemma back_ok n : says p a n -> accepts B now p n -> exists s', mcallback cc (w_m w) (pd_kind p) a = Ok s'.
Proof.
  unfold says, accepts. destruct (pd_kind p) as [id|ct|id v vt memo]; cbn [mcallback].
  - intros Hs. apply total_iff in Hs. rewrite obs_prop. intros ([q Hq] & H1 & H2). cbn [observe b_period b_floor] in H1, H2. unfold start_callback. rewrite Hs. cbn [mbind res_bind].
    unfold get_mpip. rewrite Hq. cbn [expect mbind res_bind]. change (now_ms cc) with now. rewrite (add64_ok _ _ H1). cbn [mbind res_bind].
    unfold get_quorum. rewrite (mul128_ok _ _ H2). cbn [mbind res_bind]. eauto.
  - intros Hs. apply power_iff in Hs. intros H1. unfold create_callback. rewrite Hs. cbn [mbind res_bind]. unfold check_threshold.
    apply N.leb_le in H1. cbn [observe b_threshold] in H1. rewrite H1. cbn [require mbind res_bind]. eauto.
  - intros Hs. apply power_iff in Hs. rewrite obs_tally. intros [H1 H2]. unfold vote_callback. rewrite Hs. cbn [mbind res_bind].
    apply N.ltb_lt in H1. rewrite H1. cbn [require mbind res_bind].
    apply N.ltb_lt in H2. change (2 ^ 128) with U128_SIZE in H2.
    destruct vt; cbn [add_tally tally_of] in *; unfold add128; cbn [pv_for pv_against pv_abstain set]; rewrite H2; cbn [mbind res_bind]; eauto.
Qed.

Lemma back_case s' : mcallback cc (w_m w) (pd_kind p) a = Ok s' -> few_proposals s' ->
  exists n, says p a n /\ accepts B now p n /\
    same (observe (mkWorld s' (delete i (w_pend w)))) (done (B <| b_wait := delete i (b_wait B) |>) now p n).
Proof.
  intros H Hf'. pose proof (VI_back _ _ _ _ _ HV H) as HV'. unfold says, accepts, done. destruct (pd_kind p) as [id|ct|id v vt memo] eqn:Ek; cbn [mcallback] in H.
  - unfold start_callback in H. apply bind_Ok in H as (n & Ht & H). apply bind_Ok in H as (q & Hp & H).
    apply bind_Ok in H as (e & He & H). apply bind_Ok in H as (qu & Hq & H). injection H as <-.
    apply total_iff in Ht. apply get_mpip_Ok in Hp. change (now_ms cc) with now in He. apply add64_Ok in He as [-> He].
    unfold get_quorum in Hq. apply bind_Ok in Hq as (y & Hy & Hq). apply Ok_inj in Hq. subst qu. apply mul128_Ok in Hy as [-> Hy].
    exists n. split; [exact Ht|]. rewrite obs_prop. split; [split; [rewrite Hp; eauto|]; split; [exact He|exact Hy]|].
    change (now_ms cc) with now.
    replace (n * m_floor (w_m w) / 100 / 100) with (n * m_floor (w_m w) / 10000) by (rewrite N.div_div by discriminate; reflexivity).
    apply same_trans with (edit id (fun q => q <| pr_start := Some now |> <| pr_end := Some (now + m_period (w_m w)) |>
        <| pr_draft := false |> <| pr_quorum := Some (n * m_floor (w_m w) / 10000) |>) (observe (mkWorld (w_m w) (delete i (w_pend w))))).
    + apply (edit_same (mkWorld (w_m w) (delete i (w_pend w))) id q (fun q => q <| pr_start := Some now |> <| pr_end := Some (now + m_period (w_m w)) |>
        <| pr_draft := false |> <| pr_quorum := Some (n * m_floor (w_m w) / 10000) |>)); [exact Hf|exact HV|exact Hp].
    + apply same_refl.
  - pose proof H as H0. unfold create_callback in H. apply bind_Ok in H as (n & Ht & H). apply bind_Ok in H as (u & Hu & H). injection H as <-.
    apply require_Ok in Hu. unfold check_threshold in Hu. apply N.leb_le in Hu. apply power_iff in Ht.
    exists n. split; [exact Ht|]. split; [exact Hu|]. fold (next_id (w_m w)) in *. 
    pose proof (KI_reach _ _ Hr Hf) as HK. pose proof (KI_next _ HK Hf) as Hnone. pose proof (next_few _ Hf) as En.
    assert (Eb : b_count B = next_id (w_m w)) by (rewrite (obs_count w Hf), En; reflexivity).
    change (b_count (B <| b_wait := delete i (b_wait B) |>)) with (b_count B). rewrite Eb.
    change (c_signer cc) with (pd_signer p) in *. unfold new_mpip in *. change (c_signer cc) with (pd_signer p) in *.
    apply same_obs; cbn [w_m w_pend].
    + exact Hf'.
    + exact HV'.
    + reflexivity.
    + cbn [b_count set]. unfold n_proposals. cbn [m_proposals set]. rewrite om_set_length, Hnone. rewrite En. unfold n_proposals. lia.
    + reflexivity.
    + intros id. cbn [b_prop set m_proposals]. destruct (decide (id = next_id (w_m w))) as [->|Hne].
      * rewrite put_eq, om_get_set_eq. reflexivity.
      * rewrite put_ne by exact Hne. rewrite om_get_set_ne by congruence. symmetry. apply obs_prop.
    + intros x. cbn [b_made set]. unfold get_proposer at 1. cbn [m_proposers set]. destruct (decide (x = pd_signer p)) as [->|Hne].
      * rewrite put_eq, om_get_set_eq. reflexivity.
      * rewrite put_ne by exact Hne. rewrite om_get_set_ne by congruence. reflexivity.
    + intros id t. symmetry. apply obs_tally.
    + intros id v. symmetry. apply (obs_ballot w id v HV).
  - pose proof H as H0. unfold vote_callback in H0. apply bind_Ok in H0 as (n & Ht & _). apply power_iff in Ht.
    apply vote_cb_inv in H as (t & l & pv1 & -> & Hpos & Ev & Hlt & Et & Es). exists n. split; [exact Ht|].
    destruct Ht as (t' & l' & E & _ & En & Hn). injection E as <- <-. subst n. rewrite obs_tally. split; [split; assumption|].
    apply same_obs; cbn [w_m w_pend].
    + exact Hf'.
    + exact HV'.
    + rewrite Es. reflexivity.
    + rewrite Es. symmetry. apply (obs_count w Hf).
    + reflexivity.
    + intros id'. rewrite Es. symmetry. apply obs_prop.
    + intros x. rewrite Es. reflexivity.
    + intros id' t'. unfold set_ballot, recount. cbn [b_tally set]. destruct (decide (id' = id)) as [->|Hne].
      * rewrite put_eq, Es, pvote_set_eq, Et. unfold put. rewrite !obs_tally. destruct (decide (vt = t')) as [<-|Hx].
        -- rewrite decide_True by reflexivity. reflexivity.
        -- rewrite decide_False by congruence. lia.
      * rewrite put_ne by exact Hne. rewrite Es, pvote_set_ne by congruence. symmetry. apply obs_tally.
    + intros id' v'. unfold set_ballot, recount. cbn [b_ballot set]. destruct (decide (id' = id)) as [->|Hne].
      * rewrite put_eq, Es, pvote_set_eq, Ev. destruct (decide (v' = v)) as [->|Hx].
        -- rewrite put_eq. apply om_get_set_eq.
        -- rewrite put_ne by exact Hx. rewrite om_get_set_ne by congruence. symmetry. apply (obs_ballot w id v' HV).
      * rewrite put_ne by exact Hne. rewrite Es, pvote_set_ne by congruence. symmetry. apply (obs_ballot w id' v' HV).
Qed.
End Answer.

(** ** One event *)
Lemma c73_step w tr x : mreach w tr -> few_proposals (w_m (wstep w x)) -> moves (observe w) x (observe (wstep w x)).
Proof.
  intros Hr Hf'. pose proof (few_step _ _ Hf') as Hf. destruct x as [c o|i ts a]; cbn [moves].
  - destruct (mcall c (w_m w) o) as [[s' out]|m] eqn:E.
    + left. destruct (call_case w tr c Hr Hf o s' out E) as (H1 & _ & H2). auto.
    + right. split.
      * intros Hm. destruct (call_ok w tr c Hr o Hm) as [r Hx]. congruence.
      * cbn [wstep]. rewrite E. apply same_refl.
  - change (b_wait (observe w)) with (w_pend w). cbn [wstep] in *. destruct (w_pend w !! i) as [p|] eqn:Ei; [|apply same_refl].
    cbv zeta. destruct (mcallback _ _ _ _) as [s'|m] eqn:E; cbn [w_m] in Hf'.
    + left. exact (back_case w tr i ts p a Hr Hf s' E Hf').
    + right. split; [|apply same_refl]. intros n Hs Ha. destruct (back_ok w ts p a n Hs Ha) as [s' Hx]. congruence.
Qed.
Lemma c73_result w tr c o : mreach w tr -> few_proposals (w_m w) ->
  ((exists r, mcall c (w_m w) o = Ok r) <-> may c (observe w) o) /\
  forall s' out, mcall c (w_m w) o = Ok (s', out) -> out = asks c (observe w) o.
Proof.
  intros Hr Hf. split; [split|].
  - intros [[s' out] H]. apply (call_case w tr c Hr Hf) in H. apply H.
  - apply (call_ok w tr c Hr).
  - intros s' out H. apply (call_case w tr c Hr Hf) in H. apply H.
Qed.
Lemma c73_init a : ((exists s, mpip_new a = Ok s) <-> mi_floor a <= 10000) /\
  forall s, mpip_new a = Ok s -> same (observe (winit s)) (new_board a).
Proof.
  unfold mpip_new. split; [split|].
  - intros [s H]. apply bind_Ok in H as (u & Hu & _). apply require_Ok, N.leb_le in Hu. exact Hu.
  - intros H. apply N.leb_le in H. change 10000 with ONE_HUNDRED in H. rewrite H. cbn [require mbind res_bind]. eauto.
  - intros s H. apply bind_Ok in H as (u & _ & H). injection H as <-. unfold same. repeat split. intros id []; reflexivity.
Qed.

(** ** Same boards behave the same *)
Lemma put_same {K} `{EqDecision K} {A} (k : K) (v v' : A) f g : v = v' -> (forall x, f x = g x) -> forall x, put k v f x = put k v' g x.
Proof. intros -> H x. unfold put. destruct (decide _); auto. Qed.
Lemma fixed_eq B C : same B C -> b_self B = b_self C /\ b_admin B = b_admin C /\ b_operator B = b_operator C /\ b_token B = b_token C /\
  b_source B = b_source C /\ b_period B = b_period C /\ b_min_meta B = b_min_meta C /\ b_min_st B = b_min_st C /\ b_threshold B = b_threshold C /\
  b_cost B = b_cost C /\ b_fee B = b_fee C /\ b_open B = b_open C /\ b_floor B = b_floor C /\ b_count B = b_count C /\ b_wait B = b_wait C.
Proof. intros [H _]. unfold fixed in H. injection H. auto 20. Qed.
Lemma edit_cong id f B C : same B C -> same (edit id f B) (edit id f C).
Proof.
  intros (H1 & H2 & H3 & H4 & H5). split; [exact H1|]. split; [|auto]. apply put_same; [rewrite H2; reflexivity|exact H2].
Qed.
Lemma recount_cong id t f B C : same B C -> same (recount id t f B) (recount id t f C).
Proof.
  intros (H1 & H2 & H3 & H4 & H5). split; [exact H1|]. split; [exact H2|]. split; [exact H3|]. split; [|exact H5].
  intros id' t'. unfold recount. cbn [b_tally set]. unfold put at 1 3. destruct (decide (id' = id)); [|apply H4].
  apply put_same; [rewrite H4; reflexivity|intros; apply H4].
Qed.
Lemma ballot_cong id v u B C : same B C -> same (set_ballot id v u B) (set_ballot id v u C).
Proof.
  intros (H1 & H2 & H3 & H4 & H5). split; [exact H1|]. split; [exact H2|]. split; [exact H3|]. split; [exact H4|].
  intros id' v'. unfold set_ballot. cbn [b_ballot set]. unfold put at 1 3. destruct (decide (id' = id)); [|apply H5].
  apply put_same; [reflexivity|intros; apply H5].
Qed.
Lemma turnout_cong id B C : same B C -> turnout B id = turnout C id.
Proof. intros (H1 & H2 & H3 & H4 & H5). unfold turnout. rewrite !H4. reflexivity. Qed.
Lemma may_cong c o B C : same B C -> may c B o -> may c C o.
Proof.
  intros H. destruct (fixed_eq _ _ H) as (F1 & F2 & F3 & F4 & F5 & F6 & F7 & F8 & F9 & F10 & F11 & F12 & F13 & F14 & F15).
  pose proof (fun id => turnout_cong id _ _ H) as Ht. destruct H as (H1 & H2 & H3 & H4 & H5).
  destruct o; cbn [may]; rewrite ?F2, ?F3, ?F11, ?F12, ?H2, ?H5; try exact (fun h => h). rewrite Ht. exact (fun h => h).
Qed.
Lemma asks_cong c o B C : same B C -> asks c B o = asks c C o.
Proof.
  intros H. destruct (fixed_eq _ _ H) as (F1 & F2 & F3 & F4 & F5 & _). destruct o; cbn [asks]; rewrite ?F5; reflexivity.
Qed.
Lemma executes_cong B C now id : same B C -> executes B now id -> executes C now id.
Proof.
  intros H (p & q & E & Hc & Hq & Hl). rewrite (turnout_cong id _ _ H) in Hl. destruct H as (H1 & H2 & _). exists p, q. rewrite <- H2. auto.
Qed.
Lemma wait_cong B C l l' : same B C -> l = l' -> same (B <| b_wait := l |>) (C <| b_wait := l' |>).
Proof. intros (H1 & H2 & H3 & H4 & H5) <-. split; [|auto]. unfold fixed in *. cbn. congruence. Qed.
Lemma accepts_cong B C now p n : same B C -> accepts B now p n -> accepts C now p n.
Proof.
  intros H. destruct (fixed_eq _ _ H) as (F1 & F2 & F3 & F4 & F5 & F6 & F7 & F8 & F9 & F10 & F11 & F12 & F13 & F14 & F15).
  destruct H as (H1 & H2 & H3 & H4 & H5). unfold accepts. destruct (pd_kind p); rewrite ?H2, ?F6, ?F13, ?F9, ?H4; exact (fun h => h).
Qed.
Lemma done_cong B C now p n : same B C -> same (done B now p n) (done C now p n).
Proof.
  intros H. destruct (fixed_eq _ _ H) as (F1 & F2 & F3 & F4 & F5 & F6 & F7 & F8 & F9 & F10 & F11 & F12 & F13 & F14 & F15).
  unfold done. destruct (pd_kind p).
  - rewrite F6, F13. apply edit_cong, H.
  - cbv zeta. rewrite F14. destruct H as (H1 & H2 & H3 & H4 & H5). split; [unfold fixed in *; cbn; congruence|].
    split; [apply put_same; [reflexivity|exact H2]|]. split; [apply put_same; [rewrite H3; reflexivity|exact H3]|]. auto.
  - apply ballot_cong, recount_cong, H.
Qed.
Lemma says_fun p a n m : says p a n -> says p a m -> n = m.
Proof.
  unfold says. destruct (pd_kind p).
  - intros (l & -> & _) (l' & E & _). congruence.
  - intros (t & l & -> & _ & -> & _) (t' & l' & E & _ & -> & _). congruence.
  - intros (t & l & -> & _ & -> & _) (t' & l' & E & _ & -> & _). congruence.
Qed.

(** what follows is determined *)
Lemma moves_fun B C x M M' : same B C -> moves B x M -> moves C x M' -> same M M'.
Proof.
  intros H. pose proof (same_sym _ _ H) as H'. destruct (fixed_eq _ _ H) as (F1 & F2 & F3 & F4 & F5 & F6 & F7 & F8 & F9 & F10 & F11 & F12 & F13 & F14 & F15).
  assert (Hk : forall f f', same f f' -> same M f -> same M' f' -> same M M').
  { intros f f' E K K'. eapply same_trans; [exact K|]. eapply same_trans; [exact E|]. apply same_sym, K'. }
  destruct x as [c o|i ts a]; cbn [moves].
  - intros [[Hm Ha]|[Hm Ha]] [[Hm' Ha']|[Hm' Ha']]; try (exfalso; apply Hm'; exact (may_cong c o B C H Hm));
      try (exfalso; apply Hm; exact (may_cong c o C B H' Hm')); [|exact (Hk _ _ H Ha Ha')].
    destruct H as (H1 & H2 & H3 & H4 & H5).
    assert (Hset : forall X Y, fixed X = fixed Y -> b_prop X = b_prop B -> b_prop Y = b_prop C -> b_made X = b_made B -> b_made Y = b_made C ->
       b_tally X = b_tally B -> b_tally Y = b_tally C -> b_ballot X = b_ballot B -> b_ballot Y = b_ballot C -> same X Y).
    { intros X Y E1 E2 E3 E4 E5 E6 E7 E8 E9. split; [exact E1|]. rewrite E2, E3, E4, E5, E6, E7, E8, E9. auto. }
    assert (HBC : same B C) by (split; auto).
    destruct o; cbn [after asks] in Ha, Ha'; rewrite ?F5 in Ha;
      try (eapply Hk; [|exact Ha|exact Ha']; first [exact HBC|apply Hset; [unfold fixed in *; cbn; congruence|reflexivity..]]; fail).
    + eapply Hk; [|exact Ha|exact Ha']. apply edit_cong, HBC.
    + eapply Hk; [|exact Ha|exact Ha']. apply edit_cong, HBC.
    + destruct Ha as (u & E & _ & Ha), Ha' as (u' & E' & _ & Ha'). rewrite H5, E' in E. injection E as ->.
      eapply Hk; [|exact Ha|exact Ha']. apply ballot_cong, recount_cong, HBC.
    + destruct Ha as [[He Ha]|[He Ha]], Ha' as [[He' Ha']|[He' Ha']];
        try (exfalso; apply He; exact (executes_cong C B _ _ H' He')); try (exfalso; apply He'; exact (executes_cong B C _ _ HBC He)).
      * eapply Hk; [|exact Ha|exact Ha']. apply edit_cong, HBC.
      * exact (Hk _ _ HBC Ha Ha').
  - rewrite <- F15. destruct (b_wait B !! i) as [p|]; [|intros Ha Ha'; exact (Hk _ _ H Ha Ha')]. cbv zeta.
    assert (H0 : same (B <| b_wait := delete i (b_wait B) |>) (C <| b_wait := delete i (b_wait B) |>)) by (apply wait_cong; [exact H|reflexivity]).
    intros [(n & Hs & Ha & Hx)|[Hn Hx]] [(n' & Hs' & Ha' & Hx')|[Hn' Hx']].
    + rewrite (says_fun _ _ _ _ Hs Hs') in Hx. eapply Hk; [|exact Hx|exact Hx']. apply done_cong, H0.
    + exfalso. exact (Hn' n Hs (accepts_cong B C _ _ _ H Ha)).
    + exfalso. exact (Hn n' Hs' (accepts_cong C B _ _ _ H' Ha')).
    + exact (Hk _ _ H0 Hx Hx').
Qed.

Lemma mreach_snoc w tr x : mreach w tr -> mreach (wstep w x) (tr ++ [x]).
Proof. intros (a & s0 & H0 & ->). exists a, s0. split; [exact H0|]. rewrite wrun_snoc. reflexivity. Qed.
Lemma c73_views tr w1 tr1 w2 tr2 :
  mreach w1 tr1 -> mreach w2 tr2 -> same (observe w1) (observe w2) ->
  few_proposals (w_m (wrun w1 tr)) -> few_proposals (w_m (wrun w2 tr)) -> same (observe (wrun w1 tr)) (observe (wrun w2 tr)).
Proof.
  revert w1 tr1 w2 tr2. induction tr as [|x tr IH]; intros w1 tr1 w2 tr2 R1 R2 H F1 F2; [exact H|].
  cbn [wrun fold_left] in *. pose proof (few_run _ tr F1) as G1. pose proof (few_run _ tr F2) as G2.
  apply (IH (wstep w1 x) (tr1 ++ [x]) (wstep w2 x) (tr2 ++ [x])); [apply mreach_snoc; exact R1|apply mreach_snoc; exact R2| |exact F1|exact F2].
  exact (moves_fun _ _ x _ _ H (c73_step w1 tr1 x R1 G1) (c73_step w2 tr2 x R2 G2)).
Qed.
