(** MVStep2.v -- C72: what the views show after each call. *)

From Verif Require Export MVStep.

Definition nums (L : ledger) := (l_power L, l_mp_total L, l_mp_ever L, l_st_total L, l_st_ever L).
Lemma same_of L M :
  (forall w, same_acct (l_acct L w) (l_acct M w)) -> settings L = settings M -> nums L = nums M ->
  (forall x y, l_tally L x y = l_tally M x y) -> (forall w, l_mp L w = l_mp M w) -> (forall w, l_st L w = l_st M w) ->
  (forall w, l_data L w = l_data M w) -> (forall w, l_pre L w = l_pre M w) ->
  (forall w, l_deleg L w = l_deleg M w) -> (forall w, l_evms L w = l_evms M w) -> same L M.
Proof.
  intros H1 H2 H3 H4 H5 H6 H7 H8 H9 H10. unfold nums in H3. injection H3 as E1 E2 E3 E4 E5.
  unfold same. auto 20.
Qed.

Lemma same_acct_refl a : same_acct a a.
Proof. unfold same_acct. auto 10. Qed.
Lemma same_acct_eq a b : a = b -> same_acct a b.
Proof. intros ->. apply same_acct_refl. Qed.
Lemma same_acct_trans a b d : same_acct a b -> same_acct b d -> same_acct a d.
Proof.
  intros (A1 & A2 & A3 & A4 & A5 & A6) (B1 & B2 & B3 & B4 & B5 & B6). unfold same_acct.
  split; [congruence|]. split; [congruence|]. split; [congruence|]. split; [congruence|]. split; [congruence|].
  intros x y. rewrite A6. apply B6.
Qed.

Lemma put_eq {A} k (v : A) f : put k v f k = v.
Proof. unfold put. rewrite decide_True by reflexivity. reflexivity. Qed.
Lemma put_ne {A} k (v : A) f x : x <> k -> put k v f x = f x.
Proof. intros H. unfold put. rewrite decide_False by exact H. reflexivity. Qed.

Lemma acct_eq s w : acct_of s w =
  mkAcct (bool_decide (w ∈ voter_ids s)) (v_bal (get_voter s w)) (map lpp (v_lps (get_voter s w)))
    (v_avail (get_voter s w)) (used_or0 s w) (votes_or0 s w).
Proof. unfold acct_of. rewrite pos_of_lp. reflexivity. Qed.

Lemma used_exact P s vid L : SInv P s -> vexact P (hp_vp s) (hp_vv s) vid (v_vp (get_voter s vid)) L -> used_or0 s vid = used L.
Proof.
  intros HS HX. destruct (inv_used _ _ _ vid (si_inv _ _ HS)) as (u & Hu & E & _). unfold used_or0. rewrite Hu, E.
  apply (used_raw_rep _ _ _ _ _ (ve_rep _ _ _ _ _ _ HX)).
Qed.

Section Step.
Context (P : string -> string -> Prop) (s : state) (G : good P s) (c : ctx).
Notation me := (c_pred c).

Lemma kept o s' e : exec c s o = Ok (s', e) -> is_vote_op o = false ->
  (forall w, used_or0 s' w = used_or0 s w) /\ (forall w x y, votes_or0 s' w x y = votes_or0 s w x y) /\
  forall x y, get_total_votes s' x y = get_total_votes s x y.
Proof.
  intros H Ho. pose proof (nonvote_vvp P _ _ _ _ _ (g_s _ _ G) H Ho) as Hv. apply exec_cases in H as [Hk _].
  destruct (Hk Ho) as (E1 & E2 & E3). split; [|split].
  - intros w. unfold used_or0, get_used_voting_power, sum_used_votes. rewrite Hv, E2, E3. reflexivity.
  - intros w x y. unfold votes_or0, get_votes_for_object. rewrite Hv, E2, E3. reflexivity.
  - intros x y. unfold get_total_votes. rewrite E1. reflexivity.
Qed.

Definition acct_with (vid : string) (v : voter) : acct :=
  mkAcct true (v_bal v) (map lpp (v_lps v)) (v_avail v) (used_or0 s vid) (votes_or0 s vid).

Lemma acct_set o s' e vid v' :
  exec c s o = Ok (s', e) -> is_vote_op o = false -> voters s' = om_set (voters s) vid v' ->
  forall w, same_acct (acct_of s' w) (put vid (acct_with vid v') (acct_of s) w).
Proof.
  intros H Ho Ev w. destruct (kept _ _ _ H Ho) as (K1 & K2 & _). rewrite acct_eq.
  unfold get_voter. rewrite Ev.
  destruct (decide (w = vid)) as [->|Hw].
  - rewrite put_eq, om_get_set_eq. unfold same_acct, acct_with; cbn [a_voter a_bal a_pos a_free a_used a_votes default].
    split; [|auto 10]. apply bool_decide_eq_true. unfold voter_ids. rewrite Ev. apply om_set_elem. auto.
  - rewrite put_ne, om_get_set_ne by congruence. rewrite acct_eq. unfold same_acct; cbn [a_voter a_bal a_pos a_free a_used a_votes].
    split; [|auto 10]. apply bool_decide_ext. unfold voter_ids. rewrite Ev, om_set_elem.
    split; [intros [?|?]; [assumption|congruence]|auto].
Qed.

Lemma acct_keep o s' e : exec c s o = Ok (s', e) -> is_vote_op o = false -> voters s' = voters s ->
  forall w, same_acct (acct_of s' w) (acct_of s w).
Proof.
  intros H Ho Ev w. destruct (kept _ _ _ H Ho) as (K1 & K2 & _). rewrite !acct_eq.
  unfold voter_ids, get_voter. rewrite Ev. unfold same_acct; cbn [a_voter a_bal a_pos a_free a_used a_votes]. auto 10.
Qed.

(** the registered caller *)
Lemma acct_me v : om_get (voters s) me = Some v ->
  acct_of s me = mkAcct true (v_bal v) (map lpp (v_lps v)) (v_avail v) (used_or0 s me) (votes_or0 s me).
Proof.
  intros Hv. rewrite acct_eq. rewrite (get_voter_Some _ _ _ Hv). f_equal. apply bool_decide_true.
  unfold voter_ids. eapply om_get_Some_key. exact Hv.
Qed.
Lemma pos_me v i p : om_get (voters s) me = Some v -> v_lps v !! i = Some p -> a_pos (acct_of s me) !! i = Some (lpp p).
Proof.
  intros Hv Hp. rewrite (acct_me _ Hv). cbn [a_pos]. change (map lpp (v_lps v)) with (lpp <$> v_lps v).
  rewrite list_lookup_fmap, Hp. reflexivity.
Qed.
Lemma map_lpp_insert i p l : map lpp (<[i := p]> l) = <[i := lpp p]> (map lpp l).
Proof. change (map lpp) with (fmap (M := list) lpp). apply list_fmap_insert. Qed.




(** *** Calls that leave the accounts alone *)
Lemma step_settings o s' e : exec c s o = Ok (s', e) ->
  match o with
  | SetStnear _ | SetOperator _ | SetOwner _ | UpdateRegCost _ | UpdateMinUnbond _ | UpdateMaxUnbond _ | SetPrevGov _ | SetLockIn _ _ _ =>
      same (observe s') (next c (observe s) o)
  | _ => True
  end.
Proof.
  intros H0. pose proof H0 as H. destruct o; try exact I; cbn [exec] in H; apply noeff_Ok in H as [H ->];
    unfold set_stnear_contract, set_operator_id, set_owner_id, update_registration_cost, update_min_unbond_period,
      update_max_unbond_period, set_prev_gov_contract, set_lock_in_vote_filters in H;
    apply bind_Ok in H as (? & _ & H); apply bind_Ok in H as (? & _ & H); injection H as <-;
    (apply same_of; [eapply acct_keep; [exact H0|reflexivity|reflexivity]|reflexivity..]).
Qed.

Lemma data_fold l : forall (m : omap_t string string) (f : string -> option string), (forall a, om_get m a = f a) ->
  forall a, om_get (fold_left (fun m p => om_set m p.1 p.2) l m) a = fold_left (fun f p => put p.1 (Some p.2) f) l f a.
Proof.
  induction l as [|[k d] l IH]; intros m f Hm a; [apply Hm|]. cbn [fold_left fst snd]. apply IH. intros b.
  destruct (decide (b = k)) as [->|Hne]; [rewrite put_eq; apply om_get_set_eq|].
  rewrite put_ne by exact Hne. rewrite om_get_set_ne by congruence. apply Hm.
Qed.

Lemma data_view t a : l_data (observe t) a = om_get (user_data t) a.
Proof. cbn [observe l_data]. unfold get_airdrop_account, expect. destruct (om_get (user_data t) a); reflexivity. Qed.
Lemma deleg_view t e : l_deleg (observe t) e = evm_sigs t !! e.
Proof. cbn [observe l_deleg]. unfold get_delegation_signature, expect. destruct (evm_sigs t !! e); reflexivity. Qed.

Lemma step_data o s' e : exec c s o = Ok (s', e) ->
  match o with
  | UpdateAirdrop _ | OpMultiSetAirdrop _ => same (observe s') (next c (observe s) o)
  | _ => True
  end.
Proof.
  intros H0. pose proof H0 as H. destruct o; try exact I; cbn [exec] in H; apply noeff_Ok in H as [H ->].
  - unfold update_airdrop_user_data in H. apply bind_Ok in H as (? & _ & H). injection H as <-.
    apply same_of; try reflexivity; [eapply acct_keep; [exact H0|reflexivity|reflexivity]|].
    intros w. rewrite data_view. change (om_get (om_set (user_data s) me data) w = put me (Some data) (l_data (observe s)) w).
    destruct (decide (w = me)) as [->|Hne]; [rewrite put_eq; apply om_get_set_eq|].
    rewrite put_ne by exact Hne. rewrite om_get_set_ne by congruence. symmetry. apply data_view.
  - unfold operator_multi_set_airdrop_data in H. apply bind_Ok in H as (? & _ & H). apply bind_Ok in H as (? & _ & H). injection H as <-.
    apply same_of; try reflexivity; [eapply acct_keep; [exact H0|reflexivity|reflexivity]|].
    intros w. rewrite data_view. cbn [next]. apply (data_fold l (user_data s) (l_data (observe s))).
    intros b. symmetry. apply data_view.
Qed.

(** *** Claims *)
Lemma om_take m (Hnd : NoDup m.*1) w amount x :
  default 0 (om_get (if default 0 (om_get m w) - amount =? 0 then om_remove m w else om_set m w (default 0 (om_get m w) - amount)) x)
  = put w (default 0 (om_get m w) - amount) (fun x => default 0 (om_get m x)) x.
Proof.
  destruct (decide (x = w)) as [->|Hne].
  - rewrite put_eq. destruct (N.eqb_spec (default 0 (om_get m w) - amount) 0) as [E|E].
    + rewrite om_get_remove_eq by exact Hnd. cbn. lia.
    + rewrite om_get_set_eq. reflexivity.
  - rewrite put_ne by exact Hne. destruct (N.eqb_spec (default 0 (om_get m w) - amount) 0) as [E|E].
    + rewrite om_get_remove_ne by auto. reflexivity.
    + rewrite om_get_set_ne by auto. reflexivity.
Qed.

Lemma step_claims o s' e : exec c s o = Ok (s', e) ->
  match o with
  | ClaimStnear _ | DelegatedClaim _ _ | AfterSt _ _ _ => same (observe s') (next c (observe s) o) /\ e = pays c (observe s) o
  | _ => True
  end.
Proof.
  intros H0. pose proof H0 as H. destruct (g_c _ _ G) as [_ [Hnd _]]. destruct o; try exact I; cbn [exec] in H.
  - unfold claim_stnear in H. apply bind_Ok in H as (? & _ & H). cbn zeta in H. apply bind_Ok in H as (s1 & Hr & H). injection H as <- <-.
    apply remove_claimable_stnear_inv in Hr as (_ & _ & ->). split; [|reflexivity].
    apply same_of; try reflexivity; [eapply acct_keep; [exact H0|reflexivity|reflexivity]|].
    intros w. apply (om_take (claim_st s) Hnd).
  - unfold delegated_claim_stnear in H. apply bind_Ok in H as (p & Hp & H). apply bind_Ok in H as (s1 & Hr & H). injection H as <- <-.
    apply (verify_inv _ _ _ _ (g_d _ _ G)) in Hp as [_ ->].
    apply remove_claimable_stnear_inv in Hr as (_ & _ & ->). split; [|reflexivity].
    apply same_of; try reflexivity; [eapply acct_keep; [exact H0|reflexivity|reflexivity]|].
    intros w. apply (om_take (claim_st s) Hnd).
  - apply noeff_Ok in H as [H ->]. split; [|reflexivity].
    unfold after_transfer_stnear_callback in H. apply bind_Ok in H as (? & _ & H). apply bind_Ok in H as (? & _ & H).
    destruct ok.
    + injection H as <-. apply same_of; try reflexivity. eapply acct_keep; [exact H0|reflexivity|reflexivity].
    + apply add_claimable_stnear_inv in H as (_ & _ & _ & ->).
      apply same_of; try reflexivity; [eapply acct_keep; [exact H0|reflexivity|reflexivity]|].
      intros w. change (default 0 (om_get (om_set (claim_st s) source (default 0 (om_get (claim_st s) source) + amount)) w)
        = put source (default 0 (om_get (claim_st s) source) + amount) (get_claimable_stnear s) w).
      destruct (decide (w = source)) as [->|Hne]; [rewrite put_eq, om_get_set_eq; reflexivity|].
      rewrite put_ne by exact Hne. rewrite om_get_set_ne by auto. reflexivity.
Qed.
End Step.
