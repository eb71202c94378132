(** MVBase.v -- inversion lemmas: what each successful call does, in relational form.
    No new modelling; used by all proofs about MetaVote.v. *)

From Verif Require Export MVView.

Lemma step_Ok s x s' e : exec x.1 s x.2 = Ok (s', e) -> step s x = s'.
Proof. intros H. unfold step. rewrite H. reflexivity. Qed.

Lemma run_app s t1 t2 : run s (t1 ++ t2) = run (run s t1) t2.
Proof. unfold run. apply fold_left_app. Qed.

Lemma run_snoc s t x : run s (t ++ [x]) = step (run s t) x.
Proof. rewrite run_app. reflexivity. Qed.

(** Invariant rule: a property of the initial state kept by every successful call. *)
Lemma run_inv (P : state -> Prop) s tr :
  P s -> (forall x s s' e, In x tr -> P s -> exec x.1 s x.2 = Ok (s', e) -> P s') ->
  P (run s tr).
Proof.
  revert s. induction tr as [|x tr IH]; intros s Hs Hstep; [exact Hs|].
  simpl. apply IH.
  - unfold step. destruct (exec x.1 s x.2) as [[s' e]|] eqn:E; [|exact Hs].
    eapply Hstep; [left; reflexivity|exact Hs|exact E].
  - intros y t t' e Hy. apply Hstep. right; exact Hy.
Qed.

Lemma noeff_Ok r s e : noeff r = Ok (s, e) <-> r = Ok s /\ e = [].
Proof.
  unfold noeff. split.
  - intros H. destruct r as [x|]; [injection H as <- <-; auto|discriminate].
  - intros [-> ->]. reflexivity.
Qed.

(** save voter and new total voting power *)
Definition upd (s : state) (vid : string) (v : voter) (t : N) : state :=
  save_voter (s <| total_vp := t |>) vid v.

Lemma calc_Ok amount days vp :
  calculate_voting_power amount days = Ok vp <->
  vp = amount * E18 * days / 60 /\ amount * E18 < U128_SIZE /\ days < 3600 /\ vp < U128_SIZE.
Proof.
  unfold calculate_voting_power, proportional.
  destruct (N.ltb_spec (amount * E18) U128_SIZE); cbn [mbind res_bind];
    [|split; [discriminate|intros (_ & ? & _); lia]].
  unfold require. destruct (N.ltb_spec days 3600); cbn [mbind res_bind];
    [|split; [discriminate|intros (_ & _ & ? & _); lia]].
  destruct (N.ltb_spec (amount * E18 * days / 60) U128_SIZE).
  - split; [intros [= <-]; auto|intros (-> & _); reflexivity].
  - split; [discriminate|intros (-> & _ & _ & ?); lia].
Qed.

Lemma find_locked_from_Some i l d j :
  find_locked_from i l d = Some j ->
  exists p, (i <= j)%nat /\ l !! (j - i)%nat = Some p /\ lp_days p = d /\ lp_unl p = None.
Proof.
  revert i. induction l as [|p l IH]; intros i; simpl; [discriminate|].
  destruct ((lp_days p =? d) && is_locked p) eqn:E.
  - intros [= <-]. apply andb_prop in E as [E1 E2]. nb. exists p.
    rewrite Nat.sub_diag. repeat split; auto.
    unfold is_locked in E2. destruct (lp_unl p); [discriminate|reflexivity].
  - intros H. destruct (IH _ H) as (q & Hle & Hl & Hd & Hu). exists q.
    replace (j - i)%nat with (S (j - S i))%nat by lia. repeat split; auto. lia.
Qed.

Lemma find_locked_Some v d j :
  find_locked_position v d = Some j ->
  exists p, v_lps v !! j = Some p /\ lp_days p = d /\ lp_unl p = None.
Proof.
  intros H. apply find_locked_from_Some in H as (p & _ & Hl & Hd & Hu).
  rewrite Nat.sub_0_r in Hl. eauto.
Qed.

Lemma find_locked_from_None i l d :
  find_locked_from i l d = None <->
  (forall p, In p l -> lp_days p = d -> lp_unl p <> None).
Proof.
  revert i. induction l as [|p l IH]; intros i; simpl; [split; [intros _ ? []|reflexivity]|].
  destruct ((lp_days p =? d) && is_locked p) eqn:E.
  - apply andb_prop in E as [E1 E2]. nb. unfold is_locked in E2.
    split; [discriminate|]. intros H. exfalso. apply (H p); auto.
    destruct (lp_unl p); [discriminate|reflexivity].
  - rewrite IH. split.
    + intros H q [<-|Hq] Hd; [|apply H; auto]. intros Hu.
      unfold is_locked in E. rewrite Hu in E. rewrite andb_true_r in E. nb. contradiction.
    + intros H q Hq. apply H. right; exact Hq.
Qed.

(** the new positions list after a deposit of [amount] for [days] *)
Definition dep_lps (maxl : N) (l : list lpos) (amount days vp : N) (l' : list lpos) : Prop :=
  (exists i p, l !! i = Some p /\ lp_days p = days /\ lp_unl p = None /\
     lp_amount p + amount < U128_SIZE /\ lp_vp p + vp < U128_SIZE /\
     l' = <[i := mkLpos (lp_amount p + amount) days (lp_vp p + vp) None]> l) \/
  (find_locked_from 0 l days = None /\ N.of_nat (length l) mod 256 < maxl /\
     l' = l ++ [mkLpos amount days vp None]).

Lemma create_lp_inv s v amount days s' v' :
  internal_create_locking_position s v amount days = Ok (s', v') ->
  exists vp, calculate_voting_power amount days = Ok vp /\
    find_locked_from 0 (v_lps v) days = None /\ N.of_nat (length (v_lps v)) mod 256 < max_lps s /\
    v_avail v + vp < U128_SIZE /\ total_vp s + vp < U128_SIZE /\
    s' = s <| total_vp := total_vp s + vp |> /\
    v' = mkVoter (v_bal v) (v_lps v ++ [mkLpos amount days vp None]) (v_avail v + vp) (v_vp v).
Proof.
  intros H. unfold internal_create_locking_position, assert_lps_room in H.
  rinv. nb. exists x1. repeat split; auto.
  unfold find_locked_position in E0. destruct (find_locked_from _ _ _); [discriminate|reflexivity].
Qed.

Lemma deposit_inv s amount days vid v s' v' :
  deposit_locking_position s amount days vid v = Ok (s', v') ->
  exists vp l', calculate_voting_power amount days = Ok vp /\
    min_unbond s <= days <= max_unbond s /\
    dep_lps (max_lps s) (v_lps v) amount days vp l' /\
    v_avail v + vp < U128_SIZE /\ total_vp s + vp < U128_SIZE /\
    v' = mkVoter (v_bal v) l' (v_avail v + vp) (v_vp v) /\
    s' = upd s vid v' (total_vp s + vp).
Proof.
  intros H. unfold deposit_locking_position in H. rinv. nb.
  destruct (find_locked_position v days) as [i|] eqn:Ef.
  - unfold increase_locking_position, get_position in *. rinv.
    destruct (find_locked_Some _ _ _ Ef) as (q & Hq & Hd & Hu).
    repeat match goal with H : v_lps v !! i = Some ?y |- _ => first [constr_eq y q; fail 1 | rewrite Hq in H; injection H as <-] end.
    match goal with Hc : calculate_voting_power _ _ = Ok ?y |- _ => exists y end.
    eexists. repeat split; try eassumption; try lia.
    left. exists i, q. repeat split; eauto.
    unfold replace_position, set; simpl. f_equal. destruct q; simpl in *; subst; reflexivity.
  - apply create_lp_inv in E0 as (vp & Hc & Hf & Hlen & Hav & Ht & -> & ->).
    exists vp, (v_lps v ++ [mkLpos amount days vp None]).
    repeat split; auto; try lia. right. auto.
Qed.

Lemma unlock_inv c s i s' :
  unlock_position c s i = Ok s' ->
  exists v p, om_get (voters s) (c_pred c) = Some v /\ v_lps v !! i = Some p /\
    lp_vp p <= v_avail v /\
    s' = upd s (c_pred c)
           (mkVoter (v_bal v)
              (<[i := mkLpos (lp_amount p) (lp_days p) (lp_vp p) (Some (now_ms c))]> (v_lps v))
              (v_avail v - lp_vp p) (v_vp v)) (total_vp s - lp_vp p).
Proof.
  intros H. unfold unlock_position, get_voter_or_panic, get_position in H. rinv. nb.
  exists x, x0. repeat split; auto.
Qed.

Lemma unlock_partial_inv c s i amount s' :
  unlock_partial_position c s i amount = Ok s' ->
  (unlock_position c s i = Ok s' /\
   exists v p, om_get (voters s) (c_pred c) = Some v /\ v_lps v !! i = Some p /\ amount = lp_amount p) \/
  exists v p vp, om_get (voters s) (c_pred c) = Some v /\ v_lps v !! i = Some p /\
    amount < lp_amount p /\ min_deposit s <= lp_amount p - amount /\
    ONE_MPDAO <= amount /\ ONE_MPDAO <= lp_amount p - amount /\
    calculate_voting_power amount (lp_days p) = Ok vp /\
    vp <= lp_vp p /\ vp <= v_avail v /\
    N.of_nat (length (v_lps v)) mod 256 < max_lps s /\
    s' = upd s (c_pred c)
           (mkVoter (v_bal v)
              (<[i := mkLpos (lp_amount p - amount) (lp_days p) (lp_vp p - vp) (lp_unl p)]> (v_lps v)
                ++ [mkLpos amount (lp_days p) vp (Some (now_ms c))])
              (v_avail v - vp) (v_vp v)) (total_vp s - vp).
Proof.
  intros H. unfold unlock_partial_position, get_voter_or_panic, get_position in H. rinv.
  destruct (amount =? lp_amount x0) eqn:Ea; [left; split; [exact H|]; nb; eauto|]. right.
  unfold create_unlocking_position, assert_lps_room, assert_at_least_1_mpdao in H. rinv. nb.
  simpl in *. eexists x, x0, _. repeat split; try eassumption.
  unfold upd, replace_position, set; simpl. f_equal. f_equal.
  rewrite insert_app_l by (eapply lookup_lt_Some; eassumption). reflexivity.
Qed.

Lemma extend_inv c s i days s' :
  locking_position_extend_days c s i days = Ok s' ->
  exists v p nvp, om_get (voters s) (c_pred c) = Some v /\ v_lps v !! i = Some p /\
    c_deposit c = 0 /\ lp_unl p = None /\ lp_days p < days /\
    calculate_voting_power (lp_amount p) days = Ok nvp /\ lp_vp p <= nvp /\
    total_vp s + (nvp - lp_vp p) < U128_SIZE /\ v_avail v + (nvp - lp_vp p) < U128_SIZE /\
    s' = upd s (c_pred c)
           (mkVoter (v_bal v) (<[i := mkLpos (lp_amount p) days nvp None]> (v_lps v))
              (v_avail v + (nvp - lp_vp p)) (v_vp v)) (total_vp s + (nvp - lp_vp p)).
Proof.
  intros H. unfold locking_position_extend_days, get_voter_or_panic, get_position, non_payable in H.
  rinv. nb. eexists _, _, _. repeat split; try eassumption.
  - unfold is_locked in *. destruct (lp_unl x1); [discriminate|reflexivity].
  - unfold upd, replace_position, set; simpl. unfold is_locked in *.
    destruct x1 as [a d y [u|]]; [discriminate|reflexivity].
Qed.

Lemma remove_position_inv v i v' :
  remove_position v i = Ok v' ->
  (i < length (v_lps v))%nat /\ v' = mkVoter (v_bal v) (swap_remove i (v_lps v)) (v_avail v) (v_vp v).
Proof.
  intros H. unfold remove_position in H. rinv. apply Nat.ltb_lt in E. auto.
Qed.

Lemma relock_inv c s i days afb s' :
  relock_position c s i days afb = Ok s' ->
  exists v p started vp l', om_get (voters s) (c_pred c) = Some v /\ v_lps v !! i = Some p /\
    afb <= v_bal v /\ lp_unl p = Some started /\
    (now_ms c < started + days_to_millis (lp_days p) ->
     started + days_to_millis (lp_days p) - now_ms c < days_to_millis days) /\
    lp_amount p + afb < U128_SIZE /\
    calculate_voting_power (lp_amount p + afb) days = Ok vp /\
    min_unbond s <= days <= max_unbond s /\
    dep_lps (max_lps s) (swap_remove i (v_lps v)) (lp_amount p + afb) days vp l' /\
    v_avail v + vp < U128_SIZE /\ total_vp s + vp < U128_SIZE /\
    s' = upd s (c_pred c) (mkVoter (v_bal v - afb) l' (v_avail v + vp) (v_vp v)) (total_vp s + vp).
Proof.
  intros H. unfold relock_position, get_voter_or_panic, get_position, non_payable in H. rinv. nb.
  repeat match goal with H : remove_position _ _ = Ok _ |- _ => apply remove_position_inv in H as [? ->] end.
  repeat match goal with H : deposit_locking_position _ _ _ _ _ = Ok _ |- _ =>
    apply deposit_inv in H as (vp & l' & ? & ? & ? & ? & ? & -> & ->) end.
  simpl in *. eexists _, _, _, _, _. repeat split; try eassumption; try lia.
  match goal with H : (if _ then require _ _ else _) = Ok _ |- _ => rename H into Hif end.
  intros Hlt. apply N.ltb_lt in Hlt. rewrite Hlt in Hif. rinv. nb. exact Hif.
Qed.

Lemma relock_partial_inv c s i afp days afb s' :
  relock_partial_position c s i afp days afb = Ok s' ->
  exists v p started vp l1 l' b1, om_get (voters s) (c_pred c) = Some v /\ v_lps v !! i = Some p /\
    afb <= v_bal v /\ afp <= lp_amount p /\ afb + afp < U128_SIZE /\ min_deposit s <= afb + afp /\
    lp_unl p = Some started /\
    ((now_ms c < started + days_to_millis (lp_days p) /\
      started + days_to_millis (lp_days p) - now_ms c < days_to_millis days /\
      afp < lp_amount p /\ b1 = v_bal v /\
      exists nvp, calculate_voting_power (lp_amount p - afp) (lp_days p) = Ok nvp /\
      l1 = <[i := mkLpos (lp_amount p - afp) (lp_days p) nvp (lp_unl p)]> (v_lps v))
     \/
     (started + days_to_millis (lp_days p) <= now_ms c /\
      b1 = v_bal v + (lp_amount p - afp) /\ b1 < U128_SIZE /\
      l1 = swap_remove i (v_lps v))) /\
    calculate_voting_power (afb + afp) days = Ok vp /\
    min_unbond s <= days <= max_unbond s /\
    dep_lps (max_lps s) l1 (afb + afp) days vp l' /\
    v_avail v + vp < U128_SIZE /\ total_vp s + vp < U128_SIZE /\
    s' = upd s (c_pred c) (mkVoter (b1 - afb) l' (v_avail v + vp) (v_vp v)) (total_vp s + vp).
Proof.
  intros H. unfold relock_partial_position, get_voter_or_panic, get_position, non_payable in H.
  rinv. nb.
  repeat match goal with H : deposit_locking_position _ _ _ _ _ = Ok _ |- _ =>
    apply deposit_inv in H as (vp & l' & ? & ? & ? & ? & ? & -> & ->) end.
  match goal with H : (if ?b then _ else _) = Ok _ |- _ => rename H into Hif; destruct b eqn:En end; rinv; nb; simpl in *.
  - eexists _, _, _, _, _, _, _. repeat split; try eassumption; try lia.
    left. repeat split; try eassumption; try lia. eexists. split; [eassumption|].
    unfold replace_position, set; simpl. reflexivity.
  - apply remove_position_inv in Hif as [? ->]. simpl in *.
    eexists _, _, _, _, _, _, _. repeat split; try eassumption; try lia.
    right. repeat split; try eassumption; try lia.
Qed.

Lemma relock_from_balance_inv c s days amount s' :
  relock_from_balance c s days amount = Ok s' ->
  exists v vp l', om_get (voters s) (c_pred c) = Some v /\
    amount <= v_bal v /\ min_deposit s <= amount /\
    calculate_voting_power amount days = Ok vp /\
    min_unbond s <= days <= max_unbond s /\
    dep_lps (max_lps s) (v_lps v) amount days vp l' /\
    v_avail v + vp < U128_SIZE /\ total_vp s + vp < U128_SIZE /\
    s' = upd s (c_pred c) (mkVoter (v_bal v - amount) l' (v_avail v + vp) (v_vp v)) (total_vp s + vp).
Proof.
  intros H. unfold relock_from_balance, get_voter_or_panic, non_payable in H. rinv. nb.
  repeat match goal with H : deposit_locking_position _ _ _ _ _ = Ok _ |- _ =>
    apply deposit_inv in H as (vp & l' & ? & ? & ? & ? & ? & -> & ->) end.
  simpl in *. eexists _, _, _. repeat split; try eassumption; try lia.
Qed.

(** Clearing positions: amounts move from positions to the balance. *)
Lemma clear_one_inv now v i v' :
  clear_one now v i = Ok v' ->
  exists p, v_lps v !! i = Some p /\
   ((is_unlocked now p = false /\ v' = v) \/
    (is_unlocked now p = true /\ v_bal v + lp_amount p < U128_SIZE /\
     v' = mkVoter (v_bal v + lp_amount p) (swap_remove i (v_lps v)) (v_avail v) (v_vp v))).
Proof.
  intros H. unfold clear_one, get_position in H. rinv. exists x. split; [assumption|].
  destruct (is_unlocked now x) eqn:Eu.
  - right. rinv. apply remove_position_inv in H as [_ ->]. simpl. auto.
  - left. rinv. auto.
Qed.

(** A relation closed under single clears is reached by a list of clears. *)
Inductive clears (now : N) : voter -> voter -> Prop :=
| clears_refl v : clears now v v
| clears_step v v1 i p :
    clears now v v1 -> v_lps v1 !! i = Some p -> is_unlocked now p = true ->
    v_bal v1 + lp_amount p < U128_SIZE ->
    clears now v (mkVoter (v_bal v1 + lp_amount p) (swap_remove i (v_lps v1)) (v_avail v1) (v_vp v1)).

Lemma clear_clears now v l v' :
  clear_fully_unlocked_positions now v l = Ok v' -> clears now v v'.
Proof.
  unfold clear_fully_unlocked_positions. intros H.
  eapply (foldM_inv (fun w => clears now v w)); [|constructor|exact H].
  intros w i w' _ Hw Hc. apply clear_one_inv in Hc as (p & Hp & [[_ ->]|(Hu & Hb & ->)]); [exact Hw|].
  econstructor; eauto.
Qed.

Lemma clear_positions_inv c s l s' :
  clear_locking_position c s l = Ok s' ->
  exists v v1, om_get (voters s) (c_pred c) = Some v /\ clears (now_ms c) v v1 /\
    clear_fully_unlocked_positions (now_ms c) v l = Ok v1 /\
    s' = save_voter s (c_pred c) v1.
Proof.
  intros H. unfold clear_locking_position, get_voter_or_panic, non_payable in H. rinv; try discriminate.
  eexists _, _. split; [eassumption|]. split; [eapply clear_clears; eassumption|]. split; [eassumption|reflexivity].
Qed.

Lemma withdraw_inv c s vid l amt s' e :
  internal_withdraw c s vid l amt = Ok (s', e) ->
  exists v v1 total, om_get (voters s) vid = Some v /\ clears (now_ms c) v v1 /\
    c_deposit c = 1 /\
    (match l with [] => v1 = v | _ => clear_fully_unlocked_positions (now_ms c) v l = Ok v1 end) /\
    total = default (v_bal v1) amt /\ 0 < total /\ total <= v_bal v1 /\
    e = [PayMp vid total] /\
    ((v_bal v1 = total /\ v_lps v1 = [] /\ s' = s <| voters := om_remove (voters s) vid |>) \/
     ((v_bal v1 <> total \/ v_lps v1 <> []) /\
      s' = save_voter s vid (mkVoter (v_bal v1 - total) (v_lps v1) (v_avail v1) (v_vp v1)))).
Proof.
  intros H. unfold internal_withdraw, get_voter_or_panic, assert_one_yocto in H.
  apply bind_Ok in H as (? & Hy & H). apply bind_Ok in H as (v & Hv & H).
  apply bind_Ok in H as (v1 & Hc & H). cbn beta zeta in H.
  apply bind_Ok in H as (? & Hpos & H). apply bind_Ok in H as (? & Hle & H).
  apply bind_Ok in H as (b & Hb & H). injection H as <- <-.
  apply require_Ok in Hy, Hpos, Hle. apply expect_Ok in Hv. apply sub128_Ok in Hb as [-> _]. nb.
  exists v, v1, (default (v_bal v1) amt).
  split; [assumption|].
  split; [destruct l; [injection Hc as <-; constructor|eapply clear_clears; eassumption]|].
  split; [assumption|]. split; [destruct l; [injection Hc as <-; reflexivity|assumption]|].
  split; [reflexivity|]. split; [assumption|]. split; [assumption|]. split; [reflexivity|].
  unfold voter_is_empty, set; simpl.
  destruct (v_bal v1 - default (v_bal v1) amt =? 0) eqn:Eb; nb; simpl.
  - destruct (v_lps v1) eqn:El.
    + left. repeat split; auto. lia.
    + right. split; [right; congruence|]. reflexivity.
  - right. split; [left; lia|]. reflexivity.
Qed.

Lemma claim_and_lock_inv c s amount days s' :
  claim_and_lock c s amount days = Ok s' ->
  exists s1 v vp l', remove_claimable_mpdao s (c_pred c) amount = Ok s1 /\
    min_deposit s <= amount /\
    om_get (voters s1) (c_pred c) = Some v /\
    calculate_voting_power amount days = Ok vp /\
    min_unbond s1 <= days <= max_unbond s1 /\
    dep_lps (max_lps s1) (v_lps v) amount days vp l' /\
    v_avail v + vp < U128_SIZE /\ total_vp s1 + vp < U128_SIZE /\
    s' = upd s1 (c_pred c) (mkVoter (v_bal v) l' (v_avail v + vp) (v_vp v)) (total_vp s1 + vp).
Proof.
  intros H. unfold claim_and_lock, get_voter_or_panic, non_payable, assert_min_deposit_amount in H.
  rinv. nb.
  repeat match goal with H : deposit_locking_position _ _ _ _ _ = Ok _ |- _ =>
    apply deposit_inv in H as (vp & l' & ? & ? & ? & ? & ? & -> & ->) end.
  eexists _, _, _, _. repeat split; try eassumption; try lia.
Qed.

Lemma remove_claimable_mpdao_inv s a amount s' :
  remove_claimable_mpdao s a amount = Ok s' ->
  amount <= default 0 (om_get (claim_mp s) a) /\ amount <= uncl_mp s /\
  s' = s <| claim_mp := (if default 0 (om_get (claim_mp s) a) - amount =? 0
                         then om_remove (claim_mp s) a
                         else om_set (claim_mp s) a (default 0 (om_get (claim_mp s) a) - amount)) |>
         <| uncl_mp := uncl_mp s - amount |>.
Proof. intros H. unfold remove_claimable_mpdao, remove_claimable in H. rinv. nb. auto. Qed.

Lemma remove_claimable_stnear_inv s a amount s' :
  remove_claimable_stnear s a amount = Ok s' ->
  amount <= default 0 (om_get (claim_st s) a) /\ amount <= uncl_st s /\
  s' = s <| claim_st := (if default 0 (om_get (claim_st s) a) - amount =? 0
                         then om_remove (claim_st s) a
                         else om_set (claim_st s) a (default 0 (om_get (claim_st s) a) - amount)) |>
         <| uncl_st := uncl_st s - amount |>.
Proof. intros H. unfold remove_claimable_stnear, remove_claimable in H. rinv. nb. auto. Qed.

Lemma add_claimable_mpdao_inv s a amount s' :
  add_claimable_mpdao s a amount = Ok s' ->
  0 < amount /\ default 0 (om_get (claim_mp s) a) + amount < U128_SIZE /\
  uncl_mp s + amount < U128_SIZE /\
  s' = s <| claim_mp := om_set (claim_mp s) a (default 0 (om_get (claim_mp s) a) + amount) |>
         <| uncl_mp := uncl_mp s + amount |>.
Proof. intros H. unfold add_claimable_mpdao, add_claimable in H. rinv. nb. auto. Qed.

Lemma add_claimable_stnear_inv s a amount s' :
  add_claimable_stnear s a amount = Ok s' ->
  0 < amount /\ default 0 (om_get (claim_st s) a) + amount < U128_SIZE /\
  uncl_st s + amount < U128_SIZE /\
  s' = s <| claim_st := om_set (claim_st s) a (default 0 (om_get (claim_st s) a) + amount) |>
         <| uncl_st := uncl_st s + amount |>.
Proof. intros H. unfold add_claimable_stnear, add_claimable in H. rinv. nb. auto. Qed.
