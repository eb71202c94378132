(** MVLog2.v -- C80: whole histories, departures, deposits, the number of lines. *)

From Verif Require Export MVLogProofs MVFits4.

Lemma tgt_last tr c o : no_zero_votes (tr ++ [(c, o)]) -> tgt (targetsP (tr ++ [(c, o)])) c o.
Proof.
  intros Hz. destruct o; try exact I; (split; [|exact (last_nonzero tr _ Hz)]).
  - exact (last_target tr (c, Vote vp addr obj) (c_pred c, addr) eq_refl).
  - exact (last_target tr (c, VoteDelegated evm vp addr obj) (evm_account evm, addr) eq_refl).
Qed.

Lemma sinv_last a s0 tr c o s' e : mv_new a = Ok s0 -> collision_free (tr ++ [(c, o)]) -> no_zero_votes (tr ++ [(c, o)]) ->
  exec c (run s0 tr) o = Ok (s', e) -> SInv (targetsP (tr ++ [(c, o)])) s'.
Proof.
  intros H0 Hc Hz H. pose proof (good_run a s0 tr [(c, o)] H0 Hc Hz) as G.
  eapply (sinv_exec _ (g_inj _ _ G) (c, o)); [|exact (last_nonzero tr _ Hz)|exact (g_s _ _ G)|exact H].
  intros t E. apply last_target. exact E.
Qed.

Lemma cf_init tr l : collision_free (tr ++ l) -> collision_free tr.
Proof. intros H p q Hp Hq. apply H; unfold vote_targets; rewrite omap_app, in_app_iff; left; assumption. Qed.
Lemma nz_init tr l : no_zero_votes (tr ++ l) -> no_zero_votes tr.
Proof. unfold no_zero_votes. rewrite Forall_app. intros [H _]. exact H. Qed.

Lemma c80_replay a s0 tr : mv_new a = Ok s0 -> collision_free tr -> no_zero_votes tr ->
  forall w x y, votes_or0 (run s0 tr) w x y = told_all (log_of s0 tr) nothing_told w x y.
Proof.
  intros H0. induction tr as [|[c o] tr IH] using rev_ind; intros Hc Hz w x y.
  - cbn [log_of told_all fold_left]. unfold nothing_told. cbn [run fold_left].
    unfold mv_new in H0. apply bind_Ok in H0 as ([] & _ & H0). apply bind_Ok in H0 as ([] & _ & H0). injection H0 as <-. reflexivity.
  - rewrite log_of_snoc, told_all_app, run_app. cbn [run fold_left]. change (fold_left step tr s0) with (run s0 tr).
    specialize (IH (cf_init _ _ Hc) (nz_init _ _ Hz)).
    unfold logs_of, step. cbn [fst snd]. destruct (exec c (run s0 tr) o) as [[s' e]|m] eqn:E.
    + rewrite (step_told _ _ (good_run a s0 tr _ H0 Hc Hz) c _ _ _ (tgt_last _ _ _ Hz) (sinv_last _ _ _ _ _ _ _ H0 Hc Hz E) E).
      apply told_all_ext. exact IH.
    + cbn [told_all fold_left]. apply IH.
Qed.

(** ** Departures *)
Lemma run_nd a s0 tr : mv_new a = Ok s0 -> NoDup (voters (run s0 tr)).*1.
Proof.
  intros Hn. apply (run_inv (fun s => NoDup (voters s).*1)).
  - unfold mv_new in Hn. rinv. constructor.
  - intros x s s' e _ H He. eapply voters_nd_exec; eauto.
Qed.

Lemma ids_get s w : w ∈ voter_ids s <-> is_Some (om_get (voters s) w).
Proof.
  unfold voter_ids. destruct (om_get (voters s) w) eqn:E; [split; [eauto|intros _; eapply om_get_Some_key; exact E]|].
  split; [intros Hin; apply om_get_None in E; contradiction|intros [? ?]; discriminate].
Qed.

Lemma godspeed_withdraw c s l amt s' e w : NoDup (voters s).*1 -> internal_withdraw c s (c_pred c) l amt = Ok (s', e) ->
  LGodspeed w ∈ withdraw_log c s l amt <-> w ∈ voter_ids s /\ w ∉ voter_ids s'.
Proof.
  intros Hnd H. apply withdraw_inv in H as (v & v1 & total & Hv & _ & _ & Hc & Et & Hpos & Hle & _ & Hs).
  assert (El : withdraw_log c s l amt = if (v_bal v1 - total =? 0) && match v_lps v1 with [] => true | _ => false end
    then [LGodspeed (c_pred c)] else []).
  { unfold withdraw_log. rewrite (get_voter_Some _ _ _ Hv). subst total. destruct l; [subst v1; reflexivity|]. rewrite Hc. reflexivity. }
  rewrite El. clear El. destruct Hs as [(Eb & Ep & ->)|(Hne & ->)].
  - rewrite Eb, Ep, N.sub_diag. cbn [N.eqb andb]. rewrite elem_of_list_singleton, !ids_get. cbn [voters set]. split.
    + intros E. injection E as ->. rewrite Hv. split; [eauto|]. rewrite om_get_remove_eq by exact Hnd. intros [? ?]; discriminate.
    + intros [H1 H2]. destruct (decide (c_pred c = w)) as [->|Hw]; [reflexivity|]. rewrite om_get_remove_ne in H2 by assumption. contradiction.
  - assert ((v_bal v1 - total =? 0) && match v_lps v1 with [] => true | _ => false end = false) as ->.
    { apply andb_false_iff. destruct Hne as [Hb|Hp]; [left; apply N.eqb_neq; lia|right; destruct (v_lps v1); [contradiction|reflexivity]]. }
    split; [intros Hx; inversion Hx|]. intros [H1 H2]. exfalso. apply H2. unfold voter_ids, save_voter. cbn [voters set]. apply om_set_elem. left. exact H1.
Qed.

Lemma other_no_godspeed c s o w : withdraw_op o = false -> LGodspeed w ∉ logs c s o.
Proof.
  intros Ho Hin. destruct o; try discriminate Ho; cbn [logs] in Hin; try (inversion Hin; fail);
    try (apply elem_of_list_singleton in Hin; discriminate).
  - unfold unlock_partial_log in Hin. destruct (_ !! _); [|inversion Hin]. destruct (_ =? _); apply elem_of_list_singleton in Hin; discriminate.
  - unfold rebalance_log in Hin. destruct (_ =? _); [apply elem_of_list_singleton in Hin; discriminate|].
    destruct (mbind _ _) as [[x|]|]; try (inversion Hin; fail). destruct (_ <? _); apply elem_of_list_singleton in Hin; discriminate.
  - destruct (mirror_log s ext l) as [ls|] eqn:E; [|inversion Hin]. unfold mirror_log in E.
    apply bind_Ok in E as (? & _ & E). apply bind_Ok in E as (? & _ & E). apply bind_Ok in E as (? & _ & E). apply bind_Ok in E as (? & _ & E).
    apply bind_Ok in E as (g & _ & E). injection E as <-. apply elem_of_cons in Hin as [Hin|Hin]; [discriminate|].
    apply elem_of_list_In, in_map_iff in Hin as (z & Hz & _). discriminate.
  - destruct ok; apply elem_of_list_singleton in Hin; discriminate.
  - destruct ok; apply elem_of_list_singleton in Hin; discriminate.
  - unfold deposit_log in Hin. destruct (msg_is_for_claims msg) as [[]|]; try (inversion Hin; fail);
      (destruct (msg_is_pair msg) as [[]|]; [destruct (c_json_pair c msg); [|inversion Hin]|..]; apply elem_of_list_singleton in Hin; discriminate).
Qed.

Lemma c80_godspeed a s0 tr x w : mv_new a = Ok s0 ->
  LGodspeed w ∈ logs_of (run s0 tr) x <-> w ∈ voter_ids (run s0 tr) /\ w ∉ voter_ids (step (run s0 tr) x).
Proof.
  intros H0. pose proof (run_nd a s0 tr H0) as Hnd. set (s := run s0 tr) in *. clearbody s. destruct x as [c o].
  unfold logs_of, step. cbn [fst snd]. destruct (exec c s o) as [[s' e]|m] eqn:E.
  2:{ split; [intros Hx; inversion Hx|]. intros [? ?]. contradiction. }
  destruct (withdraw_op o) eqn:Eo.
  - destruct o; try discriminate Eo; cbn [exec logs] in *.
    + unfold withdraw in E. eapply godspeed_withdraw; eassumption.
    + unfold withdraw_all in E. apply bind_Ok in E as (v & Hv & E). unfold get_voter_or_panic in Hv. apply expect_Ok in Hv.
      rewrite (get_voter_Some _ _ _ Hv). eapply godspeed_withdraw; eassumption.
  - split; [intros Hx; exfalso; eapply other_no_godspeed; eassumption|].
    intros [H1 H2]. exfalso. apply H2. apply exec_cases_by in E as [_ [(Ev & _)|(vid & v' & [Ev|[_ Hw]] & _)]].
    + unfold voter_ids. rewrite Ev. exact H1.
    + unfold voter_ids. rewrite Ev. apply om_set_elem. left. exact H1.
    + congruence.
Qed.

(** ** Deposits *)
Lemma in_positions_raw s w : in_positions s w = sum_by lp_amount (v_lps (get_voter s w)).
Proof. unfold in_positions, get_all_locking_positions. apply sum_by_imap. reflexivity. Qed.

Lemma dep_lps_amount m l amount days vp l' : dep_lps m l amount days vp l' -> sum_by lp_amount l' = sum_by lp_amount l + amount.
Proof.
  intros [(i & p & Hp & _ & _ & _ & _ & ->)|(_ & _ & ->)].
  - pose proof (sum_by_insert lp_amount l i p (mkLpos (lp_amount p + amount) days (lp_vp p + vp) None) Hp) as E. cbn [lp_amount] in E. lia.
  - rewrite sum_by_app, sum_by_cons, sum_by_nil. cbn [lp_amount]. lia.
Qed.

Lemma c80_deposit s c sender amount msg s' e : exec c s (FtOnTransfer sender amount msg) = Ok (s', e) ->
  (exists r, after_prefix "for-claims:" msg = Some r /\ logs c s (FtOnTransfer sender amount msg) = [] /\
     forall v, in_positions s' v = in_positions s v) \/
  (exists w days, after_prefix "for-claims:" msg = None /\ lock_target c sender msg = Some (w, days) /\
     logs c s (FtOnTransfer sender amount msg) = [LDeposit amount w] /\
     in_positions s' w = in_positions s w + amount /\ forall v, v <> w -> in_positions s' v = in_positions s v).
Proof.
  intros H0. pose proof H0 as H. cbn [exec] in H. apply bind_Ok in H as ([s2 n] & H & H'). injection H' as <- <-.
  unfold ft_on_transfer in H. apply bind_Ok in H as (? & _ & H). apply bind_Ok in H as (fc & Hfc & H).
  cbn [logs]. unfold deposit_log. rewrite Hfc. destruct fc.
  - left. pose proof (for_claims_true _ Hfc) as E. eexists. split; [exact E|]. split; [reflexivity|].
    apply bind_Ok in H as (l & Hl & H). apply bind_Ok in H as (? & _ & H). apply bind_Ok in H as (s3 & Hd & H). injection H as -> _.
    apply distribute_inv in Hd as (_ & [(_ & _ & Es)|(_ & _ & _ & Es)]); cbn zeta in Es; intros v; rewrite !in_positions_raw, Es; reflexivity.
  - right. apply bind_Ok in H as (? & _ & H). apply bind_Ok in H as (ip & Hip & H).
    apply bind_Ok in H as ([vid days] & Ht & H). apply bind_Ok in H as (? & _ & H). apply bind_Ok in H as ([s3 v3] & Hd & H). injection H as -> _.
    exists vid, days. split; [exact (for_claims_false _ Hfc)|]. rewrite Hip.
    pose proof (pair_spec _ (pair_needs _ _ Hip)) as Hp. rewrite Hip in Hp. apply Ok_inj in Hp. 
    assert (El : lock_target c sender msg = Some (vid, days) /\
      match (if ip then true else false) with true => match c_json_pair c msg with Some pr => [LDeposit amount pr.1] | None => [] end | false => [LDeposit amount sender] end = [LDeposit amount vid]).
    { unfold lock_target. subst ip. destruct (after_prefix "[" msg).
      - apply bind_Ok in Ht as (pr & Hpr & Ht). apply expect_Ok in Hpr. apply bind_Ok in Ht as (? & _ & Ht).
        apply bind_Ok in Ht as (? & _ & Ht). injection Ht as ->. rewrite Hpr. split; reflexivity.
      - apply bind_Ok in Ht as (d & Hpr & Ht). apply expect_Ok in Hpr. injection Ht as <- <-. rewrite Hpr. split; reflexivity. }
    destruct El as [El1 El2]. split; [exact El1|]. split; [destruct ip; exact El2|].
    apply deposit_inv in Hd as (vp & l' & _ & _ & Hdl & _ & _ & -> & ->). split.
    + rewrite !in_positions_raw. unfold get_voter at 1. unfold upd, save_voter. cbn [voters set]. rewrite om_get_set_eq. cbn [default v_lps].
      eapply dep_lps_amount. exact Hdl.
    + intros v Hv. rewrite !in_positions_raw. unfold get_voter, upd, save_voter. cbn [voters set]. rewrite om_get_set_ne by congruence. reflexivity.
Qed.

(** "increased" and "decreased" are said when they are so *)
Lemma c80_direction a s0 tr c vp addr obj s' e :
  mv_new a = Ok s0 -> collision_free (tr ++ [(c, Rebalance vp addr obj)]) -> no_zero_votes (tr ++ [(c, Rebalance vp addr obj)]) ->
  let s := run s0 tr in let old := votes_or0 s (c_pred c) addr obj in
  exec c s (Rebalance vp addr obj) = Ok (s', e) ->
  0 < old /\ votes_or0 s' (c_pred c) addr obj = vp /\
  logs c s (Rebalance vp addr obj) =
    [if vp =? 0 then LUnvote (c_pred c) obj addr else if old <? vp then LUp (c_pred c) vp obj addr else LDown (c_pred c) vp obj addr] /\ old <> vp.
Proof.
  intros H0 Hc Hz s old H. pose proof (good_run a s0 tr _ H0 Hc Hz) as G. fold s in G. set (P := targetsP (tr ++ [(c, Rebalance vp addr obj)])) in *.
  pose proof (sinv_last _ _ _ _ _ _ _ H0 Hc Hz H) as HS'. fold P in HS'. pose proof (g_s _ _ G) as HS.
  pose proof (step_told P s G c _ _ _ (tgt_last _ _ _ Hz) HS' H (c_pred c) addr obj) as Ht.
  cbn [exec] in H. apply noeff_Ok in H as [H _].
  pose proof H as HR. apply (rebalance_exact P) in HR as (s1 & v' & L & L' & Hv & HX & _ & _ & Hpos & Hne & _); [|exact HS].
  assert (Hold : old = lvotes L addr obj) by apply (votes_or0_exact _ _ _ _ _ _ HX).
  assert (Hl : logs c s (Rebalance vp addr obj) =
    [if vp =? 0 then LUnvote (c_pred c) obj addr else if old <? vp then LUp (c_pred c) vp obj addr else LDown (c_pred c) vp obj addr]).
  { cbn [logs]. unfold rebalance_log. destruct (vp =? 0); [reflexivity|].
    unfold rebalance in H. apply bind_Ok in H as (u0 & _ & H). cbn zeta in H. apply bind_Ok in H as (v & Hv2 & H).
    apply bind_Ok in H as (h & Hh & H). apply bind_Ok in H as (oo & Hoo & H). apply bind_Ok in H as (x & Hx & H). apply expect_Ok in Hx. subst oo.
    apply expect_Ok in Hv2. rewrite (get_voter_Some _ _ _ Hv2), Hh, go, Hoo.
    rewrite (get_voter_Some _ _ _ Hv2) in HX. rewrite (gvp_exact P _ _ _ _ _ HX) in Hh. injection Hh as <-.
    assert (HP : P (c_pred c) addr).
    { unfold ihand in Hoo. destruct (om_get L addr) as [[hh m]|] eqn:E.
      - apply (ve_P _ _ _ _ _ _ HX). eapply om_get_Some_key; exact E.
      - exfalso. unfold lvotes in Hpos. rewrite E in Hpos. cbn in Hpos. lia. }
    rewrite (ve_uget_inner P _ _ _ _ _ HX _ obj HP) in Hoo. injection Hoo as Hoo.
    assert (Hlx : lvotes L addr obj = x) by (rewrite lvotes_imap, Hoo; reflexivity).
    rewrite Hold, Hlx. destruct (x <? vp); reflexivity. }
  split; [lia|]. split; [|split; [exact Hl|lia]].
  rewrite Ht, Hl. unfold told_all. cbn [fold_left]. destruct (vp =? 0) eqn:E; nb; [|destruct (old <? vp)]; cbn [told]; unfold entry; rewrite decide_True by auto; lia.
Qed.

(** ** Lines about positions *)
Lemma on_pos w f (L : ledger) : a_pos (l_acct (on w f L) w) = a_pos (f (l_acct L w)).
Proof. unfold on. cbn [l_acct set]. rewrite put_eq. reflexivity. Qed.
Lemma on_bal w f (L : ledger) : a_bal (l_acct (on w f L) w) = a_bal (f (l_acct L w)).
Proof. unfold on. cbn [l_acct set]. rewrite put_eq. reflexivity. Qed.
Definition lam (p : pos) : N := if locked p then p_amount p else 0.
Lemma in_lock_eq a : in_lock a = sum_by lam (a_pos a).
Proof. reflexivity. Qed.
Lemma add_to_sum p l : sum_by p_amount (add_to p l) = sum_by p_amount l + p_amount p.
Proof.
  induction l as [|q l IH]; cbn [add_to]; [rewrite sum_by_cons, !sum_by_nil; lia|].
  destruct (locked q && _); rewrite !sum_by_cons; cbn [p_amount]; lia.
Qed.
Lemma add_to_lock n d v l : sum_by lam (add_to (mkPos n d v None) l) = sum_by lam l + n.
Proof.
  induction l as [|q l IH]; cbn [add_to]; [rewrite sum_by_cons, !sum_by_nil; unfold lam; cbn [locked p_since p_amount]; lia|].
  destruct (locked q) eqn:E; cbn [andb]; [destruct (p_days q =? _)|]; rewrite !sum_by_cons; cbn [p_amount]; try (rewrite IH; lia).
  unfold lam at 1 3. rewrite E. cbn [locked p_since p_amount]. lia.
Qed.
Lemma take_out_sum f i l q : l !! i = Some q -> sum_by f (take_out i l) + f q = sum_by f l.
Proof.
  intros H. assert (E : take_out i l = swap_remove i l).
  { unfold take_out, swap_remove. destruct (last l) eqn:E; [reflexivity|]. apply last_None in E. subst l. reflexivity. }
  rewrite E. pose proof (sum_by_swap_remove f _ _ _ H). lia.
Qed.
Lemma lock_for_view w n d f (L : ledger) :
  a_pos (l_acct (lock_for w n d (on w f L)) w) = add_to (mkPos n d (power d n) None) (a_pos (f (l_acct L w))) /\
  a_bal (l_acct (lock_for w n d (on w f L)) w) = a_bal (f (l_acct L w)).
Proof.
  split.
  - change (a_pos (l_acct (on w (lock_acct n d) (on w f L)) w) = add_to (mkPos n d (power d n) None) (a_pos (f (l_acct L w)))).
    rewrite on_pos. change (add_to (mkPos n d (power d n) None) (a_pos (l_acct (on w f L) w)) = add_to (mkPos n d (power d n) None) (a_pos (f (l_acct L w)))).
    rewrite on_pos. reflexivity.
  - change (a_bal (l_acct (on w (lock_acct n d) (on w f L)) w) = a_bal (f (l_acct L w))).
    rewrite on_bal. change (a_bal (l_acct (on w f L) w) = a_bal (f (l_acct L w))). apply on_bal.
Qed.
Lemma c80_positions a s0 tr c o s' e l :
  mv_new a = Ok s0 -> collision_free (tr ++ [(c, o)]) -> no_zero_votes (tr ++ [(c, o)]) ->
  let s := run s0 tr in exec c s o = Ok (s', e) -> l ∈ logs c s o -> line_holds (now_ms c) (observe s) (observe s') l.
Proof.
  intros H0 Hc Hz s H Hl. 
  assert (HB : named_once o -> enabled c (observe s) o /\ becomes c (observe s) o (observe s')).
  { intros Hn. destruct (c72 a s0 tr c o H0 Hc Hz Hn) as [HS _]. destruct (HS s' e H) as (B1 & B2 & _). split; assumption. }
  assert (Hlps : map pos_of (get_all_locking_positions 0 s (c_pred c)) = a_pos (l_acct (observe s) (c_pred c))) by reflexivity.
  assert (Hraw : forall i p, v_lps (get_voter s (c_pred c)) !! i = Some p ->
     exists q, a_pos (l_acct (observe s) (c_pred c)) !! i = Some q /\ p_amount q = lp_amount p).
  { intros i p Hi. change (l_acct (observe s) (c_pred c)) with (acct_of s (c_pred c)). rewrite acct_eq. cbn [a_pos]. rewrite list_lookup_fmap, Hi. eexists. split; reflexivity. }
  generalize dependent (observe s'). generalize dependent (observe s). intros L Hlps Hraw L' HB.
  assert (Hpos : forall M w, same L' M -> a_pos (l_acct L' w) = a_pos (l_acct M w) /\ a_bal (l_acct L' w) = a_bal (l_acct M w)).
  { intros M w (_ & HM & _). destruct (HM w) as (_ & A2 & A3 & _). split; assumption. }
  assert (KU : forall i q, a_pos (l_acct L (c_pred c)) !! i = Some q ->
     same L' (on (c_pred c) (unlock_acct (now_ms c) i q) L <| l_power := l_power L - p_vp q |>) -> line_holds (now_ms c) L L' (LUnlock (c_pred c) i)).
  { intros i q Hq HM. cbn [line_holds]. exists q. split; [exact Hq|]. destruct (Hpos _ (c_pred c) HM) as [-> _]. cbn [l_acct set].
    change (a_pos (l_acct (on (c_pred c) (unlock_acct (now_ms c) i q) L) (c_pred c)) !! i = Some (mkPos (p_amount q) (p_days q) (p_vp q) (Some (now_ms c)))).
    rewrite on_pos. unfold unlock_acct. cbn [a_pos set]. apply list_lookup_insert. eapply lookup_lt_Some. exact Hq. }
  destruct o; cbn [logs] in Hl; try (apply elem_of_nil in Hl; contradiction).
  all: try (apply elem_of_list_singleton in Hl; subst l; try exact I).
  all: try (destruct (HB I) as [Hen Hbe]; cbn [enabled becomes next] in Hen, Hbe).
  - destruct Hen as (_ & q & Hq & _). unfold at_pos in Hbe. rewrite Hq in Hbe. apply (KU _ _ Hq Hbe).
  - unfold unlock_partial_log in Hl. destruct (v_lps _ !! _) as [p|] eqn:Ep; [|apply elem_of_nil in Hl; contradiction].
    destruct (Hraw _ _ Ep) as (q & Hq & Ea). destruct Hen as (_ & q2 & Hq2 & Hen). rewrite Hq in Hq2. injection Hq2 as <-.
    unfold at_pos in Hbe. rewrite Hq, Ea in Hbe. rewrite Ea in Hen.
    destruct (amount =? lp_amount p) eqn:E; nb; apply elem_of_list_singleton in Hl; subst l; [apply (KU _ _ Hq Hbe)|].
    destruct Hen as [[Hen _]|Hen]; [contradiction|]. cbn [line_holds].
    destruct (Hpos _ (c_pred c) Hbe) as [Hp _]. cbn [l_acct set] in Hp.
    change (a_pos (l_acct L' (c_pred c)) = a_pos (l_acct (on (c_pred c) (unlock_part (now_ms c) i q amount) L) (c_pred c))) in Hp.
    rewrite on_pos in Hp. unfold unlock_part in Hp. cbn [a_pos set] in Hp. rewrite Hp.
    eexists q, _, _. split; [exact Hq|]. split.
    { rewrite lookup_app_l by (rewrite insert_length; eapply lookup_lt_Some; exact Hq). apply list_lookup_insert. eapply lookup_lt_Some. exact Hq. }
    split; [apply last_snoc|]. cbn [p_since p_amount]. split; [reflexivity|]. split; [reflexivity|]. lia.
  - destruct Hen as (_ & q & Hq & Hk & Hd & _). unfold at_pos in Hbe. rewrite Hq in Hbe. destruct (Hpos _ (c_pred c) Hbe) as [Hp _]. cbn [l_acct set] in Hp.
    change (a_pos (l_acct L' (c_pred c)) = a_pos (l_acct (on (c_pred c) (extend i q days) L) (c_pred c))) in Hp.
    rewrite on_pos in Hp. unfold extend in Hp. cbn [a_pos set] in Hp. cbn [line_holds]. rewrite Hp. eexists q, _. split; [exact Hq|].
    split; [apply list_lookup_insert; eapply lookup_lt_Some; exact Hq|]. cbn [p_since p_amount p_days]. unfold locked in Hk.
    destruct (p_since q); [discriminate Hk|]. auto.
  - destruct Hen as (_ & Hb & q & t & Hq & Ht & _). unfold at_pos in Hbe. rewrite Hq in Hbe. destruct (Hpos _ (c_pred c) Hbe) as [Hp Hb2].
    match type of Hbe with same _ (lock_for ?w ?n ?d (on _ ?f _)) => destruct (lock_for_view w n d f L) as [V1 V2] end.
    rewrite V1 in Hp. rewrite V2 in Hb2. cbn [a_pos a_bal set] in Hp, Hb2. cbn [line_holds]. exists q, t, afb. rewrite !in_lock_eq, Hp, Hb2, add_to_lock.
    pose proof (take_out_sum lam _ _ _ Hq) as K. unfold lam at 2 in K. unfold locked in K. rewrite Ht in K.
    split; [exact Hq|]. split; [exact Ht|]. split; lia.
  - destruct Hen as (_ & Hb & _ & q & t & Hq & Ht & Hle & _). unfold at_pos in Hbe. rewrite Hq in Hbe. destruct (Hpos _ (c_pred c) Hbe) as [Hp Hb2].
    match type of Hbe with same _ (lock_for ?w ?n ?d (on _ ?f _)) => destruct (lock_for_view w n d f L) as [V1 V2] end.
    rewrite V1 in Hp. rewrite V2 in Hb2. cbn [line_holds]. exists q, t, (afb + afp). rewrite !in_lock_eq, Hp, Hb2, add_to_lock, add_to_sum.
    split; [exact Hq|]. split; [exact Ht|]. cbn [p_amount]. unfold relock_part. rewrite Ht. destruct (_ <? _); cbn [a_pos a_bal set].
    + pose proof (sum_by_insert lam _ _ _ (mkPos (p_amount q - afp) (p_days q) (power (p_days q) (p_amount q - afp)) (Some t)) Hq) as K.
      pose proof (sum_by_insert p_amount _ _ _ (mkPos (p_amount q - afp) (p_days q) (power (p_days q) (p_amount q - afp)) (Some t)) Hq) as K2.
      cbn [p_amount] in K2. unfold lam at 2 4 in K. unfold locked in K. cbn [p_since] in K. rewrite Ht in K. split; lia.
    + pose proof (take_out_sum lam _ _ _ Hq) as K. pose proof (take_out_sum p_amount _ _ _ Hq) as K2. unfold lam at 2 in K. unfold locked in K. rewrite Ht in K.
      split; lia.
  - destruct Hen as (_ & _ & Hle & _). destruct (Hpos _ (c_pred c) Hbe) as [Hp Hb].
    match type of Hbe with same _ (lock_for ?w ?n ?d (on _ ?f _)) => destruct (lock_for_view w n d f L) as [V1 V2] end.
    rewrite V1 in Hp. rewrite V2 in Hb. cbn [a_pos a_bal set] in Hp, Hb. exists amount. rewrite !in_lock_eq, Hp, Hb, add_to_lock. split; [lia|reflexivity].
  - unfold rebalance_log in Hl. destruct (_ =? _); [apply elem_of_list_singleton in Hl; subst l; exact I|].
    destruct (mbind _ _) as [[x|]|]; [destruct (_ <? _)|..]; try (apply elem_of_nil in Hl; contradiction); (apply elem_of_list_singleton in Hl; subst l; exact I).
  - destruct (mirror_log s _ _) as [ls|] eqn:E; [|apply elem_of_nil in Hl; contradiction]. unfold mirror_log in E. cbv zeta in E. repeat (apply bind_Ok in E as (? & _ & E)). injection E as <-.
    apply elem_of_cons in Hl as [->|Hl]; [exact I|]. apply elem_of_list_In, in_map_iff in Hl as (? & <- & _). exact I.
  - unfold withdraw_log in Hl. destruct (match l0 with [] => _ | _ => _ end); [|apply elem_of_nil in Hl; contradiction].
    destruct (voter_is_empty _); [apply elem_of_list_singleton in Hl; subst l; exact I|apply elem_of_nil in Hl; contradiction].
  - unfold withdraw_log in Hl. destruct (match unlocked_indexes _ _ with [] => _ | _ => _ end); [|apply elem_of_nil in Hl; contradiction].
    destruct (voter_is_empty _); [apply elem_of_list_singleton in Hl; subst l; exact I|apply elem_of_nil in Hl; contradiction].
  - destruct ok; exact I.
  - destruct ok; exact I.
  - unfold deposit_log in Hl. destruct (msg_is_for_claims msg) as [[]|]; [apply elem_of_nil in Hl; contradiction|..];
      (destruct (msg_is_pair msg) as [[]|]; [destruct (c_json_pair c msg)|..]; try (apply elem_of_nil in Hl; contradiction); (apply elem_of_list_singleton in Hl; subst l; exact I)).
Qed.
