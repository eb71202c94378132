(** MVStep4.v -- C72: unlocking, extending, collecting ended positions, withdrawing, and its refund. *)

From Verif Require Export MVStep3.

(** collecting a list of indexes *)
Lemma clear_list now l v v' : NoDup l -> clear_fully_unlocked_positions now v l = Ok v' ->
  collect now (in_list l) (length (map lpp (v_lps v))) (v_bal v) (map lpp (v_lps v)) = (v_bal v', map lpp (v_lps v')) /\
  v_avail v' = v_avail v /\ v_vp v' = v_vp v.
Proof.
  intros Hnd H. unfold clear_fully_unlocked_positions in H. rewrite map_length.
  assert (Hf : Forall (fun k => (k < length (v_lps v))%nat) (sort_desc l)).
  { pose proof (sort_desc_gt l Hnd) as Hs. destruct (sort_desc l) as [|k r]; [constructor|].
    cbn [foldM] in H. apply bind_Ok in H as (v1 & H1 & _). unfold clear_one in H1. apply bind_Ok in H1 as (p & Hp & _).
    apply expect_Ok in Hp. apply lookup_lt_Some in Hp. apply StronglySorted_inv in Hs as [_ Hg].
    constructor; [exact Hp|]. eapply Forall_impl; [exact Hg|]. cbn. intros x Hx. lia. }
  destruct (clear_collect now _ (sort_desc_gt l Hnd) _ _ _ Hf H) as [E1 E2]. split; [|exact E2].
  rewrite <- E1. apply collect_ext. intros k p _ _. f_equal. unfold in_list. apply bool_decide_ext.
  rewrite (sort_desc_perm l). reflexivity.
Qed.

Lemma clear_voter now l v v' : NoDup l -> clear_fully_unlocked_positions now v l = Ok v' ->
  forall x u f, collect_acct now (in_list l) (mkAcct x (v_bal v) (map lpp (v_lps v)) (v_avail v) u f)
    = mkAcct x (v_bal v') (map lpp (v_lps v')) (v_avail v') u f.
Proof.
  intros Hnd H x u f. destruct (clear_list _ _ _ _ Hnd H) as (E & Ea & _). unfold collect_acct. cbn [a_pos a_bal]. rewrite E, Ea. reflexivity.
Qed.

Lemma all_ended now l : forall k, in_list (unlocked_indexes now l) k =
  match map lpp l !! k with Some p => ended now p | None => false end.
Proof.
  intros k. unfold in_list. change (map lpp l) with (lpp <$> l). rewrite list_lookup_fmap.
  destruct (decide (k ∈ unlocked_indexes now l)) as [H|H].
  - rewrite bool_decide_true by exact H. apply unlocked_indexes_in in H as (p & E & Hu). rewrite E. cbn. symmetry. exact Hu.
  - rewrite bool_decide_false by exact H. destruct (l !! k) as [p|] eqn:E; [|reflexivity]. cbn.
    destruct (ended now (lpp p)) eqn:Ee; [|reflexivity]. exfalso. apply H. apply unlocked_indexes_in. eauto.
Qed.

Section Step4.
Context (P : string -> string -> Prop) (s : state) (G : good P s) (c : ctx).
Notation me := (c_pred c).

Lemma step_unlock o s' e : exec c s o = Ok (s', e) ->
  match o with
  | Unlock _ | UnlockPartial _ _ | ExtendDays _ _ => same (observe s') (next c (observe s) o)
  | _ => True
  end.
Proof.
  intros H0. pose proof H0 as H. destruct o; try exact I; cbn [exec] in H; apply noeff_Ok in H as [H ->].
  - apply bind_Ok in H as (? & _ & H). apply unlock_inv in H as (v & p & Hv & Hp & Hle & Es).
    cbn [next]. unfold at_pos. rewrite (pos_me s c v i p Hv Hp : a_pos (l_acct (observe s) me) !! i = _).
    eapply (same_upd P s G); [exact H0|reflexivity|exact Es|reflexivity|..]; try reflexivity.
    + unfold on. cbn [l_acct set]. rewrite put_eq. change (l_acct (observe s) me) with (acct_of s me). rewrite (acct_me s c v Hv).
      unfold acct_with, unlock_acct. cbn [v_lps v_bal v_avail]. rewrite map_lpp_insert. reflexivity.
    + intros w Hw. unfold on. cbn [l_acct set]. rewrite put_ne by exact Hw. reflexivity.
  - apply bind_Ok in H as (? & _ & H). apply unlock_partial_inv in H as [(H & v & p & Hv & Hp & ->)|(v & p & vp & Hv & Hp & Hlt & _ & _ & _ & Hvp & Hle1 & Hle2 & _ & Es)].
    + cbn [next]. unfold at_pos. rewrite (pos_me s c v i p Hv Hp : a_pos (l_acct (observe s) me) !! i = _).
      cbn [lpp p_amount]. rewrite N.eqb_refl.
      apply unlock_inv in H as (v2 & p2 & Hv2 & Hp2 & Hle & Es). rewrite Hv in Hv2. injection Hv2 as <-. rewrite Hp in Hp2. injection Hp2 as <-.
      eapply (same_upd P s G); [exact H0|reflexivity|exact Es|reflexivity|..]; try reflexivity.
      * unfold on. cbn [l_acct set]. rewrite put_eq. change (l_acct (observe s) me) with (acct_of s me). rewrite (acct_me s c v Hv).
        unfold acct_with, unlock_acct. cbn [v_lps v_bal v_avail]. rewrite map_lpp_insert. reflexivity.
      * intros w Hw. unfold on. cbn [l_acct set]. rewrite put_ne by exact Hw. reflexivity.
    + cbn [next]. unfold at_pos. rewrite (pos_me s c v i p Hv Hp : a_pos (l_acct (observe s) me) !! i = _).
      cbn [lpp p_amount p_days]. assert (amount =? lp_amount p = false) as -> by (apply N.eqb_neq; lia).
      apply power_calc in Hvp as ->.
      eapply (same_upd P s G); [exact H0|reflexivity|exact Es|reflexivity|..]; try reflexivity.
      * unfold on. cbn [l_acct set]. rewrite put_eq. change (l_acct (observe s) me) with (acct_of s me). rewrite (acct_me s c v Hv).
        unfold acct_with, unlock_part. cbn [v_lps v_bal v_avail]. rewrite map_app, map_lpp_insert. reflexivity.
      * intros w Hw. unfold on. cbn [l_acct set]. rewrite put_ne by exact Hw. reflexivity.
  - apply extend_inv in H as (v & p & nvp & Hv & Hp & _ & Hu & Hd & Hvp & Hle & _ & _ & Es).
    apply power_calc in Hvp as ->.
    cbn [next]. unfold at_pos. rewrite (pos_me s c v i p Hv Hp : a_pos (l_acct (observe s) me) !! i = _).
    eapply (same_upd P s G); [exact H0|reflexivity|exact Es|reflexivity|..]; try reflexivity.
    + unfold on. cbn [l_acct set]. rewrite put_eq. change (l_acct (observe s) me) with (acct_of s me). rewrite (acct_me s c v Hv).
      unfold acct_with, extend. cbn [v_lps v_bal v_avail]. rewrite map_lpp_insert. reflexivity.
    + intros w Hw. unfold on. cbn [l_acct set]. rewrite put_ne by exact Hw. reflexivity.
Qed.

(** the calls that only save one account *)
Lemma same_save o s' e vid v' M f :
  exec c s o = Ok (s', e) -> is_vote_op o = false -> s' = save_voter s vid v' ->
  M = on vid f (observe s) -> acct_with s vid v' = f (acct_of s vid) -> same (observe s') M.
Proof.
  intros H Ho Es -> Ha.
  eapply (same_upd P s G) with (s1 := s) (t := total_vp s); [exact H|exact Ho| |reflexivity|..]; try reflexivity.
  - rewrite Es. unfold upd, save_voter. destruct s; reflexivity.
  - unfold on. cbn [l_acct set]. rewrite put_eq. exact Ha.
  - intros w Hw. unfold on. cbn [l_acct set]. rewrite put_ne by exact Hw. reflexivity.
Qed.

Lemma withdraw_step o s' e l amt ks : exec c s o = Ok (s', e) -> is_vote_op o = false ->
  internal_withdraw c s me l (if amt =? 0 then None else Some amt) = Ok (s', e) -> NoDup l ->
  (forall v v1, om_get (voters s) me = Some v ->
     match l with [] => v1 = v | _ => clear_fully_unlocked_positions (now_ms c) v l = Ok v1 end ->
     collect_acct (now_ms c) ks (acct_of s me) = acct_with s me v1) ->
  same (observe s') (on me (fun a => pay_out (paid c (observe s) ks amt) (collect_acct (now_ms c) ks a)) (observe s)) /\
  e = [PayMp me (paid c (observe s) ks amt)].
Proof.
  intros H0 Ho H Hnd Hcol. apply withdraw_inv in H as (v & v1 & total & Hv & _ & _ & Hc & Et & Hpos & Hle & -> & Hs).
  specialize (Hcol v v1 Hv Hc).
  assert (Ep : paid c (observe s) ks amt = total).
  { unfold paid, collected_acct. change (l_acct (observe s) me) with (acct_of s me). rewrite Hcol. cbn [acct_with a_bal].
    rewrite Et. destruct (amt =? 0); reflexivity. }
  rewrite Ep. split; [|reflexivity].
  destruct Hs as [(Eb & El & Es)|(Hne & Es)].
  - destruct (kept P s G c _ _ _ H0 Ho) as (K1 & K2 & K3).
    pose proof (nonvote_vvp P _ _ _ _ _ (g_s _ _ G) H0 Ho me) as Evp.
    pose proof (i_nd _ _ _ (si_inv _ _ (g_s _ _ G))) as HndV.
    assert (Ev : voters s' = om_remove (voters s) me) by (rewrite Es; reflexivity).
    assert (Hnone : om_get (voters s') me = None) by (rewrite Ev; apply om_get_remove_eq; exact HndV).
    assert (Enew : v_vp (get_voter s me) = unew me) by (rewrite <- Evp; unfold get_voter; rewrite Hnone; reflexivity).
    destruct (si_ex _ _ (g_s _ _ G) me) as [L HX]. pose proof HX as HX2. rewrite Enew in HX2. apply vexact_new in HX2. subst L.
    assert (Hu : used_or0 s me = 0) by (rewrite (used_exact _ _ _ _ (g_s _ _ G) HX); reflexivity).
    assert (Hz : forall x y, votes_or0 s me x y = 0) by (intros x y; rewrite (votes_or0_exact _ _ _ _ _ _ HX); reflexivity).
    apply same_of; try reflexivity; try (rewrite Es; reflexivity).
    + intros w. unfold on. cbn [l_acct set]. change (l_acct (observe s) me) with (acct_of s me). rewrite Hcol.
      change (l_acct (observe s')) with (acct_of s'). change (l_acct (observe s)) with (acct_of s).
      unfold pay_out, acct_with at 1 2. cbn [a_bal a_pos]. rewrite Eb, El, N.eqb_refl. cbn [map andb].
      destruct (decide (w = me)) as [->|Hw].
      * rewrite put_eq, acct_eq. unfold get_voter. rewrite Hnone. unfold same_acct, no_account. cbn [a_voter a_bal a_pos a_free a_used a_votes].
        split; [|split; [reflexivity|split; [reflexivity|split; [reflexivity|]]]].
        -- apply bool_decide_eq_false. unfold voter_ids. apply om_get_None. exact Hnone.
        -- rewrite K1. split; [exact Hu|]. intros x y. rewrite K2. apply Hz.
      * rewrite put_ne by exact Hw. rewrite !acct_eq. unfold get_voter. rewrite Ev, om_get_remove_ne by congruence.
        unfold same_acct. cbn [a_voter a_bal a_pos a_free a_used a_votes]. split; [|auto 10].
        apply bool_decide_ext. unfold voter_ids. rewrite Ev. 
        assert (Hi : forall z : state, w ∈ (voters z).*1 <-> is_Some (om_get (voters z) w)).
        { intros z. destruct (om_get (voters z) w) eqn:E; [split; [eauto|intros _; eapply om_get_Some_key; exact E]|].
          split; [intros Hin; apply om_get_None in E; contradiction|intros [? ?]; discriminate]. }
        rewrite <- Ev, (Hi s'), (Hi s), Ev, om_get_remove_ne by congruence. reflexivity.
  - eapply same_save; [exact H0|exact Ho|exact Es|reflexivity|].
    cbn beta. rewrite Hcol. unfold pay_out, acct_with at 2 3. cbn [a_bal a_pos].
    assert (((v_bal v1 =? total) && match map lpp (v_lps v1) with [] => true | _ => false end) = false) as ->.
    { destruct Hne as [Hne|Hne]; [apply N.eqb_neq in Hne; rewrite Hne; reflexivity|].
      destruct (v_lps v1); [contradiction|]. cbn [map]. apply andb_false_r. }
    reflexivity.
Qed.

Lemma step_collect o s' e : named_once o -> exec c s o = Ok (s', e) ->
  match o with
  | ClearPositions _ | AfterMp _ _ _ => same (observe s') (next c (observe s) o)
  | Withdraw _ _ | WithdrawAll => same (observe s') (next c (observe s) o) /\ e = pays c (observe s) o
  | _ => True
  end.
Proof.
  intros Hno H0. pose proof H0 as H. destruct o; try exact I; cbn [exec] in H; cbn [named_once] in Hno.
  - apply noeff_Ok in H as [H ->]. apply clear_positions_inv in H as (v & v1 & Hv & _ & Hc & Es).
    eapply same_save; [exact H0|reflexivity|exact Es|reflexivity|].
    rewrite (acct_me s c v Hv), (clear_voter _ _ _ _ Hno Hc). reflexivity.
  - cbn [next pays]. eapply withdraw_step; [exact H0|reflexivity|exact H|exact Hno|].
    intros v v1 Hv Hc. rewrite (acct_me s c v Hv). destruct l as [|k l].
    + subst v1. unfold collect_acct. cbn [a_pos a_bal].
      assert (Hz : forall n b q, collect (now_ms c) (in_list []) n b q = (b, q)).
      { induction n as [|n IH]; intros b q; [reflexivity|]. cbn [collect].
        assert (in_list [] n = false) as -> by (unfold in_list; apply bool_decide_eq_false; intros Hi; inversion Hi).
        cbn [andb]. destruct (q !! n); apply IH. }
      rewrite Hz. reflexivity.
    + rewrite (clear_voter _ _ _ _ Hno Hc). reflexivity.
  - cbn [next pays]. unfold withdraw_all in H. apply bind_Ok in H as (v & Hv & H). apply expect_Ok in Hv.
    eapply (withdraw_step WithdrawAll _ _ _ 0); [exact H0|reflexivity|exact H|apply unlocked_indexes_NoDup|].
    intros v' v1 Hv' Hc. rewrite Hv in Hv'. injection Hv' as <-. rewrite (acct_me s c v Hv).
    transitivity (collect_acct (now_ms c) (in_list (unlocked_indexes (now_ms c) (v_lps v)))
      (mkAcct true (v_bal v) (map lpp (v_lps v)) (v_avail v) (used_or0 s me) (votes_or0 s me))).
    { unfold collect_acct. cbn [a_pos a_bal]. f_equal; f_equal.
      all: erewrite (collect_ext _ (fun _ => true)); [reflexivity|]. 
      all: intros k p _ Hk; rewrite all_ended, Hk; cbn [andb]; destruct (ended (now_ms c) p); reflexivity. }
    destruct (unlocked_indexes (now_ms c) (v_lps v)) as [|k l] eqn:El.
    + subst v1. unfold collect_acct. cbn [a_pos a_bal].
      assert (Hz : forall n b q, collect (now_ms c) (in_list []) n b q = (b, q)).
      { induction n as [|n IH]; intros b q; [reflexivity|]. cbn [collect].
        assert (in_list [] n = false) as -> by (unfold in_list; apply bool_decide_eq_false; intros Hi; inversion Hi).
        cbn [andb]. destruct (q !! n); apply IH. }
      rewrite Hz. reflexivity.
    + rewrite (fun Hn => clear_voter _ _ _ _ Hn Hc); [|rewrite <- El; apply unlocked_indexes_NoDup]. reflexivity.
  - apply noeff_Ok in H as [H ->]. unfold after_transfer_mpdao_callback in H.
    apply bind_Ok in H as (? & _ & H). apply bind_Ok in H as (? & _ & H). cbn [next]. destruct ok.
    + injection H as <-. apply same_of; try reflexivity. intros w. apply same_acct_refl.
    + cbn zeta in H. apply bind_Ok in H as (b & Hb & H). apply add128_Ok in Hb as [-> _]. injection H as <-.
      eapply same_save; [exact H0|reflexivity|reflexivity|reflexivity|]. rewrite acct_eq. reflexivity.
Qed.
End Step4.
