(** MVSmall2.v -- C77, continued: an enabled call computes numbers that fit. *)

From Verif Require Export MVSmall MVSpecSmall.

Lemma take_out_swap k l : take_out k l = swap_remove k l.
Proof. unfold take_out, swap_remove. destruct (last l) eqn:E; [reflexivity|]. apply last_None in E. subst l. reflexivity. Qed.
Lemma in_take_out k l p : In p (take_out k l) -> In p l.
Proof.
  rewrite take_out_swap. intros H. pose proof (proj2 (List.Forall_forall (fun q => In q l) l) (fun q Hq => Hq)) as HF.
  apply (Forall_swap_remove _ l k) in HF. exact (proj1 (List.Forall_forall _ _) HF p H).
Qed.
Lemma in_insert {A} k (x : A) l p : In p (<[k := x]> l) -> p = x \/ In p l.
Proof.
  intros H. apply elem_of_list_In, elem_of_list_lookup in H as [i H]. destruct (decide (i = k)) as [->|Hne].
  - destruct (decide (k < length l)%nat) as [Hl|Hl].
    + rewrite list_lookup_insert in H by exact Hl. left. congruence.
    + rewrite list_insert_ge in H by lia. right. apply elem_of_list_In. eapply elem_of_list_lookup_2; exact H.
  - rewrite list_lookup_insert_ne in H by congruence. right. apply elem_of_list_In. eapply elem_of_list_lookup_2; exact H.
Qed.

Definition usum (l : list pos) : N := sum_by (fun p => if locked p then 0 else p_amount p) l.
Lemma collect_le now ks n : forall b l, (n <= length l)%nat -> (collect now ks n b l).1 <= b + usum l.
Proof.
  induction n as [|k IH]; intros b l Hn; cbn [collect]; [cbn; lia|].
  destruct (l !! k) as [p|] eqn:Ek; [|apply IH; lia]. destruct (ks k && ended now p) eqn:E; [|apply IH; lia].
  apply andb_prop in E as [_ E]. assert (Hl : locked p = false) by (unfold locked; unfold ended in E; destruct (p_since p); [reflexivity|discriminate]).
  pose proof (sum_by_swap_remove (fun p => if locked p then 0 else p_amount p) l k p Ek) as Hs. cbn beta in Hs. rewrite Hl in Hs.
  etransitivity; [apply IH|].
  - rewrite take_out_length by lia. lia.
  - unfold usum. rewrite take_out_swap. lia.
Qed.
Lemma usum_map l : usum (map lpp l) = uamt l.
Proof. unfold usum, uamt. change (map lpp l) with (lpp <$> l). rewrite sum_by_fmap. apply sum_by_ext. intros p _. unfold isl, locked, lpp. cbn. destruct (lp_unl p); reflexivity. Qed.
Lemma power_le days amount : days < 3600 -> power days amount <= K60 * amount.
Proof.
  intros H. unfold power, K60. assert (E : E18 = 10 ^ 18) by reflexivity. rewrite E.
  apply N.div_le_upper_bound; [lia|]. transitivity (amount * 10 ^ 18 * 3600); [apply N.mul_le_mono_l; lia|lia].
Qed.

Section Enabled.
Context (a : init_args) (s0 : state) (tr : list call) (H0 : mv_new a = Ok s0) (Hcf : collision_free tr) (Hlen : N.of_nat (length tr) < 2 ^ 64).
Notation s := (run s0 tr).
Notation L := (observe s).

Lemma acct_pos w : a_pos (l_acct L w) = map lpp (v_lps (get_voter s w)).
Proof. change (l_acct L w) with (acct_of s w). rewrite acct_eq. reflexivity. Qed.
Lemma acct_bal w : a_bal (l_acct L w) = v_bal (get_voter s w).
Proof. change (l_acct L w) with (acct_of s w). rewrite acct_eq. reflexivity. Qed.
Lemma pos_lean w p : In p (a_pos (l_acct L w)) -> p_vp p <= K60 * p_amount p /\ p_days p < 3600.
Proof.
  rewrite acct_pos. intros H. apply in_map_iff in H as (q & <- & H).
  exact (proj1 (List.Forall_forall _ _) (lean_run a s0 tr w H0 Hlen) q H).
Qed.
Lemma locked_le w p : In p (a_pos (l_acct L w)) -> locked p = true -> p_amount p <= LA s.
Proof.
  rewrite acct_pos. intros H Hl. apply in_map_iff in H as (q & <- & H). etransitivity; [|apply (lamt_le s0 tr w)].
  unfold lamt. pose proof (sum_ge (fun p => if isl p then lp_amount p else 0) _ q H) as HH. cbn beta in HH.
  assert (E : isl q = true) by exact Hl. rewrite E in HH. exact HH.
Qed.
Lemma unlocked_le w p : In p (a_pos (l_acct L w)) -> locked p = false -> p_amount p <= uamt (v_lps (get_voter s w)).
Proof.
  rewrite acct_pos. intros H Hl. apply in_map_iff in H as (q & <- & H).
  unfold uamt. pose proof (sum_ge (fun p => if isl p then 0 else lp_amount p) _ q H) as HH. cbn beta in HH.
  assert (E : isl q = false) by exact Hl. rewrite E in HH. exact HH.
Qed.
Lemma any_le w p : In p (a_pos (l_acct L w)) -> p_amount p <= mp_owed s.
Proof.
  intros H. pose proof (owed_parts s0 tr w). destruct (locked p) eqn:E; [pose proof (locked_le w p H E)|pose proof (unlocked_le w p H E)]; lia.
Qed.

Lemma lock_small w l amount days :
  days < 3600 -> (forall p, In p l -> locked p = true -> In p (a_pos (l_acct L w))) -> K60 * (LA s + amount) < 2 ^ 128 ->
  lock_fits L l amount days.
Proof.
  intros Hd Hl HB. pose proof (power_le days amount Hd) as Hp. pose proof (total_lean a s0 tr H0 Hcf Hlen) as Ht.
  change (l_power L) with (total_vp s). unfold lock_fits, u128.
  assert (HK : 10 ^ 18 <= K60) by (unfold K60; assert (E : E18 = 10 ^ 18) by reflexivity; rewrite E; lia).
  split; [|split].
  - apply N.le_lt_trans with (K60 * (LA s + amount)); [|exact HB]. transitivity (amount * K60); [apply N.mul_le_mono_l; exact HK|]. lia.
  - change (l_power L) with (total_vp s). lia.
  - intros p Hf. apply find_some in Hf as [Hin Hf]. apply andb_prop in Hf as [Hf _]. specialize (Hl p Hin Hf).
    pose proof (locked_le w p Hl Hf) as Hle. pose proof (pos_lean w p Hl) as [Hv _]. 
    assert (HA : K60 * p_amount p <= K60 * LA s) by (apply N.mul_le_mono_l; exact Hle).
    assert (HK1 : p_amount p + amount <= K60 * (LA s + amount)).
    { transitivity (1 * (LA s + amount)); [lia|]. apply N.mul_le_mono_r. lia. }
    split; lia.
Qed.

Lemma bal_small now ks w : K60 * mp_owed s < 2 ^ 128 -> u128 (a_bal (collect_acct now ks (l_acct L w))).
Proof.
  intros HB. unfold collect_acct. cbn [a_bal set]. pose proof (collect_le now ks (length (a_pos (l_acct L w))) (a_bal (l_acct L w)) (a_pos (l_acct L w)) (le_n _)) as H.
  pose proof (owed_parts s0 tr w) as Ho. rewrite acct_pos, usum_map, acct_bal in H. rewrite acct_pos, acct_bal. unfold u128.
  assert (HK : 1 * mp_owed s <= K60 * mp_owed s) by (apply N.mul_le_mono_r; unfold K60; assert (E : E18 = 10 ^ 18) by reflexivity; rewrite E; lia).
  lia.
Qed.

Lemma enabled_fits c o : imports (c, o) = false -> K60 * (mp_owed s + mp_received s (c, o)) < 2 ^ 128 -> spare c L o ->
  enabled c L o -> fits c L o.
Proof.
  intros Hi HB Hr He.
  assert (HK : 10 ^ 18 <= K60) by (unfold K60; assert (E : E18 = 10 ^ 18) by reflexivity; rewrite E; lia).
  assert (HK1 : 1 <= K60) by (assert (1 <= 10 ^ 18) by (vm_compute; discriminate); lia).
  assert (HBo : K60 * mp_owed s < 2 ^ 128) by lia.
  assert (small1 : forall n, n <= mp_owed s -> n * 10 ^ 18 < 2 ^ 128).
  { intros n Hn. apply N.le_lt_trans with (K60 * mp_owed s); [|exact HBo]. rewrite N.mul_comm. apply N.mul_le_mono; assumption. }
  assert (small0 : forall n, n <= mp_owed s -> n < 2 ^ 128).
  { intros n Hn. apply N.le_lt_trans with (K60 * mp_owed s); [|exact HBo]. transitivity (1 * n); [lia|]. apply N.mul_le_mono; assumption. }
  assert (smallp : forall n, n <= mp_owed s -> K60 * n < 2 ^ 128).
  { intros n Hn. apply N.le_lt_trans with (K60 * mp_owed s); [|exact HBo]. apply N.mul_le_mono_l; assumption. }
  pose proof (owed_parts s0 tr (c_pred c)) as Hop.
  destruct o; cbn [fits enabled] in *; cbv zeta in *; try exact I; try discriminate Hi.
  - (* claim and lock *)
    destruct He as (_ & _ & Ha & _ & _ & Hd & _).
    assert (Hu : l_mp L (c_pred c) <= uncl_mp s).
    { change (l_mp L (c_pred c)) with (clm (claim_mp s) (c_pred c)). apply CI_le. refine (proj1 (CIs_run s0 tr _)). eapply CIs_init. exact H0. }
    apply (lock_small (c_pred c)); [exact Hd|auto|apply smallp; lia].
  - (* partial unlock *)
    intros p Hp Hne. destruct He as (_ & q & Hq & He). rewrite Hp in Hq. injection Hq as <-.
    assert (Hin : In p (a_pos (l_acct L (c_pred c)))) by (apply elem_of_list_In; eapply elem_of_list_lookup_2; exact Hp).
    pose proof (any_le _ _ Hin). apply small1. lia.
  - (* extend *)
    intros p Hp. destruct He as (_ & q & Hq & Hl & _ & Hd & Hv). rewrite Hp in Hq. injection Hq as <-.
    assert (Hin : In p (a_pos (l_acct L (c_pred c)))) by (apply elem_of_list_In; eapply elem_of_list_lookup_2; exact Hp).
    pose proof (any_le _ _ Hin) as Ha. pose proof (power_le days (p_amount p) Hd) as Hpw. pose proof (locked_le _ _ Hin Hl) as HLA.
    split; [apply small1; exact Ha|]. split; [unfold u128; pose proof (smallp _ Ha); lia|].
    rewrite acct_pos in Hin. apply in_map_iff in Hin as (q & <- & Hin).
    pose proof (total_slack a s0 tr H0 Hcf Hlen (c_pred c) q Hin Hl) as Hs. cbn [p_amount p_vp lpp] in *.
    change (l_power L) with (total_vp s). unfold u128. pose proof (smallp (LA s) ltac:(lia)). lia.
  - (* relock *)
    intros p Hp. destruct He as (_ & Hb & q & t & Hq & Ht & _ & _ & Hd & _). rewrite Hp in Hq. injection Hq as <-.
    assert (Hin : In p (a_pos (l_acct L (c_pred c)))) by (apply elem_of_list_In; eapply elem_of_list_lookup_2; exact Hp).
    assert (Hl : locked p = false) by (unfold locked; rewrite Ht; reflexivity).
    pose proof (unlocked_le _ _ Hin Hl) as Hu. rewrite acct_bal in Hb.
    split; [apply small0; lia|]. apply (lock_small (c_pred c)); [exact Hd| |apply smallp; lia].
    intros r Hr2 _. eapply in_take_out. exact Hr2.
  - (* partial relock *)
    intros p t Hp Ht. destruct He as (_ & Hb & _ & q & t' & Hq & Ht' & Ha & _ & He). rewrite Hp in Hq. injection Hq as <-.
    assert (Hd : days < 3600) by (destruct He as [(_ & _ & _ & Hd & _)|(_ & _ & Hd & _)]; exact Hd).
    assert (Hin : In p (a_pos (l_acct L (c_pred c)))) by (apply elem_of_list_In; eapply elem_of_list_lookup_2; exact Hp).
    assert (Hl : locked p = false) by (unfold locked; rewrite Ht; reflexivity).
    pose proof (unlocked_le _ _ Hin Hl) as Hu. rewrite acct_bal in Hb. pose proof (pos_lean _ _ Hin) as [_ Hd2].
    split; [apply small0; lia|]. split.
    + apply (lock_small (c_pred c)); [exact Hd| |apply smallp; lia].
      intros r Hr2 Hlr. unfold relock_part in Hr2. rewrite Ht in Hr2. destruct (_ <? _); cbn [a_pos set] in Hr2.
      * apply in_insert in Hr2 as [->|Hr2]; [discriminate Hlr|exact Hr2].
      * eapply in_take_out. exact Hr2.
    + destruct (_ <? _).
      * split; [apply small1; lia|]. pose proof (power_le (p_days p) (p_amount p - afp) Hd2). pose proof (smallp (p_amount p - afp) ltac:(lia)). unfold u128. lia.
      * rewrite acct_bal. apply small0. lia.
  - (* from the balance *)
    destruct He as (_ & _ & Hb & _ & _ & Hd & _). rewrite acct_bal in Hb. apply (lock_small (c_pred c)); [exact Hd|auto|apply smallp; lia].
  - apply bal_small. exact HBo.
  - apply bal_small. exact HBo.
  - apply bal_small. exact HBo.
  - (* refund of mpDAO *)
    intros ->. unfold mp_received in HB. cbn [snd] in HB. pose proof (owed_parts s0 tr vid) as Hov. rewrite acct_bal. unfold u128.
    apply N.le_lt_trans with (1 * (mp_owed s + amount)); [lia|]. eapply N.le_lt_trans; [|exact HB]. apply N.mul_le_mono_r. exact HK1.
  - intros ->. exact Hr.
  - (* transfer *)
    unfold spare in Hr. destruct (after_prefix "for-claims:" msg) as [rest|] eqn:Ea.
    + unfold mp_received in HB. cbn [fst snd] in HB. change (l_mpdao L) with (mpdao_addr s) in *.
      destruct (decide (c_pred c = mpdao_addr s)); [|exact Hr]. split; [|exact Hr]. change (l_mp_total L) with (uncl_mp s). unfold u128.
      apply N.le_lt_trans with (1 * (mp_owed s + amount)); [lia|]. eapply N.le_lt_trans; [|exact HB]. apply N.mul_le_mono_r. exact HK1.
    + intros w days Hw. destruct He as (_ & _ & Hm & _ & _ & w' & days' & Hw' & (_ & Hd & _) & _). rewrite Hw in Hw'. injection Hw' as <- <-.
      unfold mp_received in HB. cbn [fst snd] in HB. change (l_mpdao L) with (mpdao_addr s) in *. rewrite decide_True in HB by exact Hm.
      apply (lock_small w); [exact Hd|auto|]. eapply N.le_lt_trans; [|exact HB]. apply N.mul_le_mono_l. lia.
Qed.
End Enabled.

Lemma c77 a s0 tr c o :
  mv_new a = Ok s0 -> collision_free (tr ++ [(c, o)]) -> no_zero_votes (tr ++ [(c, o)]) -> named_once o ->
  N.of_nat (length tr) < 2 ^ 64 -> imports (c, o) = false ->
  let s := run s0 tr in
  60 * 10 ^ 18 * (mp_owed s + mp_received s (c, o)) < 2 ^ 128 -> spare c (observe s) o ->
  (exists s' e, exec c s o = Ok (s', e)) <-> enabled c (observe s) o.
Proof.
  intros H0 Hc Hz Hn Hl Hi s HB Hr. pose proof (c76 a s0 tr c o H0 Hc Hz Hn) as H. cbv zeta in H. fold s in H.
  rewrite H. split; [intros [He _]; exact He|]. intros He. split; [exact He|].
  eapply enabled_fits; [exact H0| |exact Hl|exact Hi| |exact Hr|exact He].
  - intros p q Hp Hq. apply Hc; unfold vote_targets in *; rewrite omap_app; apply in_app_iff; auto.
  - exact HB.
Qed.
