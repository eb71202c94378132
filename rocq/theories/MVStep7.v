(** MVStep7.v -- C72: the two descriptions of when a call is accepted agree; the whole step. *)

From Verif Require Export MVStep6.

Lemma ex_iff {A} (Q R : A -> Prop) : (forall x, Q x <-> R x) -> (exists x, Q x) <-> (exists x, R x).
Proof. intros H. split; intros [x Hx]; exists x; apply H; exact Hx. Qed.

Section Enabled.
Context (s : state) (c : ctx).
Notation now := (now_ms c).
Notation L := (observe s).

Lemma pos_at w k : a_pos (l_acct L w) !! k = lpp <$> v_lps (get_voter s w) !! k.
Proof.
  change (l_acct L w) with (acct_of s w). rewrite acct_eq. cbn [a_pos].
  change (map lpp ?x) with (fmap (M := list) lpp x). apply list_lookup_fmap.
Qed.

Lemma pos_iff w k (Q : lp_json -> Prop) (R : pos -> Prop) :
  (forall p, Q (lp_to_json now k p) <-> R (lpp p)) ->
  (exists j, get_locking_position now s k w = Some j /\ Q j) <-> (exists p, a_pos (l_acct L w) !! k = Some p /\ R p).
Proof.
  intros H. rewrite pos_at. unfold get_locking_position. destruct (v_lps (get_voter s w) !! k) as [p|]; cbn.
  - split; intros (? & E & Hq); injection E as <-; eexists; (split; [reflexivity|]); apply H; exact Hq.
  - split; intros (? & E & _); discriminate.
Qed.
Lemma pos_some w k : is_Some (get_locking_position now s k w) <-> is_Some (a_pos (l_acct L w) !! k).
Proof.
  rewrite pos_at. unfold get_locking_position. destruct (v_lps (get_voter s w) !! k) as [p|]; cbn; split; intros [? E]; eauto; discriminate.
Qed.

Lemma count_same w : lps_count s w = npos (l_acct L w).
Proof. unfold lps_count, npos. cbn [observe l_acct]. unfold acct_of. cbn [a_pos]. rewrite map_length. reflexivity. Qed.

Lemma locked_same w days : has_locked s w days <-> pos_locked_for (l_acct L w) days.
Proof.
  unfold has_locked, pos_locked_for. cbn [observe l_acct]. unfold acct_of. cbn [a_pos]. split.
  - intros (j & Hj & Hl & Hd). exists (pos_of j). split; [apply in_map; exact Hj|]. split; [|exact Hd].
    apply imap_In in Hj as (i & p & _ & ->). cbn in Hl |- *. unfold is_locked in Hl. unfold locked. cbn. destruct (lp_unl p); [discriminate|reflexivity].
  - intros (p & Hp & Hl & Hd). apply in_map_iff in Hp as (j & <- & Hj). exists j. split; [exact Hj|]. split; [|exact Hd].
    apply imap_In in Hj as (i & q & _ & ->). cbn in Hl |- *. unfold is_locked. unfold locked in Hl. cbn in Hl. destruct (lp_unl q); [discriminate|reflexivity].
Qed.

Lemma lock_same w days f : can_lock s w days f <-> may_lock L w days f.
Proof. unfold can_lock, may_lock. rewrite <- locked_same, <- count_same. reflexivity. Qed.

Lemma reg_same w : w ∈ voter_ids s <-> a_voter (l_acct L w) = true.
Proof. cbn [observe l_acct]. unfold acct_of. cbn [a_voter]. symmetry. apply bool_decide_eq_true. Qed.

Lemma vote_same w n : can_vote s w n <-> may_vote L w n.
Proof. unfold can_vote, may_vote. rewrite <- reg_same. reflexivity. Qed.

Lemma deleg_same e w : get_delegate s e = Some w <-> delegated_to L e w.
Proof.
  unfold delegated_to. unfold get_delegate. split.
  - intros H. destruct (evm_sigs s !! e) as [[a g]|] eqn:E; cbn in H; [|discriminate]. injection H as <-. exists g. rewrite deleg_view. exact E.
  - intros [g H]. rewrite deleg_view in H. rewrite H. reflexivity.
Qed.

Lemma collected_same w (Q : nat -> Prop) `{!forall i, Decision (Q i)} (ks : nat -> bool) : (forall i, ks i = bool_decide (Q i)) ->
  collected now s w Q = a_bal (collect_acct now ks (l_acct L w)).
Proof.
  intros HQ. unfold collect_acct. cbn [a_bal set]. rewrite collect_bal. change (l_acct L w) with (acct_of s w). rewrite acct_eq. cbn [a_bal a_pos].
  unfold collected, raw_balance, get_all_locking_positions. f_equal. rewrite map_length.
  generalize (v_lps (get_voter s w)) as l. intros l.
  change (map lpp l) with (lpp <$> l).
  assert (HH : forall l' k, sum_by (fun j => if j_is_unlocked j && bool_decide (Q (j_index j)) then j_amount j else 0)
      (imap (fun i p => lp_to_json now (k + i)%nat p) l')
    = sum_by (fun i => match (lpp <$> l') !! (i - k)%nat with Some p => if ks i && ended now p then p_amount p else 0 | None => 0 end) (seq k (length l'))).
  { induction l' as [|p l' IH]; intros k; [reflexivity|]. rewrite imap_cons. cbn [length seq]. rewrite !sum_by_cons. f_equal.
    - rewrite Nat.sub_diag. cbn [fmap list_fmap lookup list_lookup]. cbn [lp_to_json j_is_unlocked j_index j_amount].
      rewrite Nat.add_0_r, is_unlocked_ended, HQ, andb_comm. reflexivity.
    - transitivity (sum_by (fun j => if j_is_unlocked j && bool_decide (Q (j_index j)) then j_amount j else 0)
        (imap (fun i p => lp_to_json now (S k + i)%nat p) l')).
      { f_equal. apply imap_ext. intros i x _. cbn. f_equal. lia. }
      rewrite IH. apply sum_by_ext. intros i Hi. apply in_seq in Hi.
      replace (i - k)%nat with (S (i - S k)) by lia. reflexivity. }
  specialize (HH l O). cbn [plus] in HH. rewrite HH. apply sum_by_ext. intros i _. rewrite Nat.sub_0_r. reflexivity.
Qed.

Lemma enabled_allowed o : enabled c L o <-> allowed c s o.
Proof.
  destruct o; cbn [enabled allowed]; cbv zeta; try reflexivity.
  - rewrite reg_same, lock_same. reflexivity.
  - apply and_iff_compat_l. symmetry. apply pos_iff. intros p. reflexivity.
  - apply and_iff_compat_l. symmetry. rewrite count_same. apply pos_iff. intros p. reflexivity.
  - apply and_iff_compat_l. symmetry. apply pos_iff. intros p. reflexivity.
  - apply and_iff_compat_l, and_iff_compat_l. symmetry. setoid_rewrite lock_same.
    split.
    + intros (j & t & Hj & H). destruct (pos_iff (c_pred c) i (fun j => j_unl j = Some t /\ long_enough now j t days /\ may_lock L (c_pred c) days 1)
        (fun p => p_since p = Some t /\ longer now p t days /\ may_lock L (c_pred c) days 1) (fun p => iff_refl _)) as [A _].
      destruct A as (p & Hp & HR); [eauto|]. exists p, t. auto.
    + intros (p & t & Hp & H). destruct (pos_iff (c_pred c) i (fun j => j_unl j = Some t /\ long_enough now j t days /\ may_lock L (c_pred c) days 1)
        (fun p => p_since p = Some t /\ longer now p t days /\ may_lock L (c_pred c) days 1) (fun p => iff_refl _)) as [_ A].
      destruct A as (j & Hj & HR); [eauto|]. exists j, t. auto.
  - apply and_iff_compat_l, and_iff_compat_l, and_iff_compat_l. symmetry. setoid_rewrite lock_same.
    split.
    + intros (j & t & Hj & H). destruct (pos_iff (c_pred c) i (fun j => j_unl j = Some t /\ afp <= j_amount j /\ long_enough now j t days /\
          ((now < free_at j t /\ afp < j_amount j /\ may_lock L (c_pred c) days 0) \/ (free_at j t <= now /\ may_lock L (c_pred c) days 1)))
        (fun p => p_since p = Some t /\ afp <= p_amount p /\ longer now p t days /\
          ((now < ends p t /\ afp < p_amount p /\ may_lock L (c_pred c) days 0) \/ (ends p t <= now /\ may_lock L (c_pred c) days 1)))
        (fun p => iff_refl _)) as [A _].
      destruct A as (p & Hp & HR); [eauto|]. exists p, t. auto.
    + intros (p & t & Hp & H). destruct (pos_iff (c_pred c) i (fun j => j_unl j = Some t /\ afp <= j_amount j /\ long_enough now j t days /\
          ((now < free_at j t /\ afp < j_amount j /\ may_lock L (c_pred c) days 0) \/ (free_at j t <= now /\ may_lock L (c_pred c) days 1)))
        (fun p => p_since p = Some t /\ afp <= p_amount p /\ longer now p t days /\
          ((now < ends p t /\ afp < p_amount p /\ may_lock L (c_pred c) days 0) \/ (ends p t <= now /\ may_lock L (c_pred c) days 1)))
        (fun p => iff_refl _)) as [_ A].
      destruct A as (j & Hj & HR); [eauto|]. exists j, t. auto.
  - rewrite reg_same, lock_same. reflexivity.
  - setoid_rewrite pos_some. reflexivity.
  - rewrite vote_same. reflexivity.
  - setoid_rewrite locked_same. setoid_rewrite count_same. reflexivity.
  - rewrite deleg_same, ?vote_same. reflexivity.
  - rewrite deleg_same, ?vote_same. reflexivity.
  - rewrite deleg_same, ?vote_same. reflexivity.
  - rewrite deleg_same, ?vote_same. reflexivity.
  - setoid_rewrite pos_some. rewrite (collected_same _ _ (in_list l)) by reflexivity. reflexivity.
  - rewrite (collected_same _ _ (fun _ => true)) by (intros i; symmetry; apply bool_decide_true; exact I). reflexivity.
  - apply and_iff_compat_l, and_iff_compat_l. destruct (after_prefix "for-claims:" msg); [reflexivity|].
    apply and_iff_compat_l, and_iff_compat_l, and_iff_compat_l. setoid_rewrite lock_same. apply ex_iff. intros w. apply ex_iff. intros days.
    unfold lock_target. destruct (after_prefix "[" msg).
    + split; [intros (H1 & H2 & H3); split; [exact H2|]; split; [exact H1|]; apply H3; discriminate|].
      intros (H1 & H2 & H3). split; [exact H2|]. split; [exact H1|]. intros _. exact H3.
    + split.
      * intros (H1 & H2 & _). destruct (parse_u16 msg); [|discriminate]. injection H1 as -> ->. auto.
      * intros (H1 & H2 & ->). rewrite H2. split; [reflexivity|]. split; [exact H1|]. intros H; contradiction H. reflexivity.
Qed.
End Enabled.

Section Whole.
Context (P : string -> string -> Prop) (s : state) (G : good P s) (c : ctx).

Lemma step_all o s' e : named_once o -> tgt P c o -> SInv P s' -> exec c s o = Ok (s', e) ->
  becomes c (observe s) o (observe s') /\ e = pays c (observe s) o.
Proof.
  intros Hno Ht HS' H.
  pose proof (step_settings P s G c _ _ _ H) as T1. pose proof (step_data P s G c _ _ _ H) as T2.
  pose proof (step_claims P s G c _ _ _ H) as T3. pose proof (step_deleg P s G c _ _ _ H) as T4.
  pose proof (step_lock P s G c _ _ _ H) as T5. pose proof (step_unlock P s G c _ _ _ H) as T6.
  pose proof (step_collect P s G c _ _ _ Hno H) as T7. pose proof (step_votes P s G c _ _ _ Ht HS' H) as T8.
  destruct o; cbn [becomes]; try exact T3; try exact T7; try (split; [first [exact T1|exact T2|exact T4|exact T5|exact T6|exact T7|exact T8]|];
    cbn [exec] in H; apply noeff_Ok in H as [_ ->]; reflexivity).
  - split; [eapply (step_migration P s G); exact H|]. cbn [exec] in H; apply noeff_Ok in H as [_ ->]; reflexivity.
  - split; [eapply (step_mirror P s G); [exact HS'|exact H]|]. cbn [exec] in H; apply noeff_Ok in H as [_ ->]; reflexivity.
  - split; [eapply (step_transfer P s G); exact H|]. cbn [exec] in H. apply bind_Ok in H as ([? ?] & _ & H). injection H as _ <-. reflexivity.
Qed.
End Whole.

Lemma c72 a s0 tr c o :
  mv_new a = Ok s0 -> collision_free (tr ++ [(c, o)]) -> no_zero_votes (tr ++ [(c, o)]) -> named_once o ->
  let s := run s0 tr in
  (forall s' e, exec c s o = Ok (s', e) ->
     enabled c (observe s) o /\ becomes c (observe s) o (observe s') /\ e = pays c (observe s) o) /\
  (enabled c (observe s) o -> (exists s' e, exec c s o = Ok (s', e)) \/ exists m, exec c s o = Panic m /\ too_big m).
Proof.
  intros H0 Hc Hz Hno s. pose proof (good_run a s0 tr [(c, o)] H0 Hc Hz) as G. fold s in G.
  assert (Ht : tgt (targetsP (tr ++ [(c, o)])) c o).
  { destruct o; try exact I; (split; [|exact (last_nonzero tr _ Hz)]).
    - exact (last_target tr (c, Vote vp addr obj) (c_pred c, addr) eq_refl).
    - exact (last_target tr (c, VoteDelegated evm vp addr obj) (evm_account evm, addr) eq_refl). }
  destruct (c71 a s0 tr c o H0 Hc Hz Hno) as [A B]. fold s in A, B. split.
  - intros s' e H. split; [apply enabled_allowed; eapply A; exact H|]. eapply step_all; [exact G|exact Hno|exact Ht| |exact H].
    eapply (sinv_exec _ (g_inj _ _ G) (c, o)); [|exact (last_nonzero tr _ Hz)|exact (g_s _ _ G)|exact H].
    intros t E. apply last_target. exact E.
  - intros He. apply B, enabled_allowed, He.
Qed.

Lemma c72_init a :
  ((exists s, mv_new a = Ok s) <-> fits_types a /\ i_min_unbond a < i_max_unbond a) /\
  forall s, mv_new a = Ok s -> same (observe s) (new_ledger a).
Proof.
  assert (E : forall x y, (x <? y) = true <-> x < y) by (intros; apply N.ltb_lt).
  split; [split|].
  - intros [s H]. unfold mv_new in H. apply bind_Ok in H as (? & H1 & H). apply bind_Ok in H as (? & H2 & _).
    apply require_Ok in H1, H2. rewrite !andb_true_iff, !E in H1. apply E in H2. destruct H1 as (((((? & ?) & ?) & ?) & ?) & ?).
    split; [|exact H2]. unfold fits_types. change (2 ^ 16) with U16_SIZE. change (2 ^ 128) with U128_SIZE. change (2 ^ 8) with U8_SIZE.
    repeat (split; [assumption|]). assumption.
  - intros [(H1 & H2 & H3 & H4 & H5 & H6) H7]. unfold mv_new.
    assert (((i_min_unbond a <? U16_SIZE) && (i_max_unbond a <? U16_SIZE) && (i_min_deposit a <? U128_SIZE) && (i_max_lps a <? U8_SIZE)
      && (i_max_vps a <? U8_SIZE) && (i_reg_cost a <? U128_SIZE)) = true) as ->.
    { rewrite !andb_true_iff, !E. change U16_SIZE with (2 ^ 16). change U128_SIZE with (2 ^ 128). change U8_SIZE with (2 ^ 8).
      repeat (split; [|assumption]). assumption. }
    apply E in H7. rewrite H7. eexists. reflexivity.
  - intros s H. unfold mv_new in H. apply bind_Ok in H as ([] & _ & H). apply bind_Ok in H as ([] & _ & H). injection H as <-.
    apply same_of; try reflexivity. intros w. change (l_acct (new_ledger a) w) with no_account.
    unfold same_acct. split; [reflexivity|]. split; [reflexivity|]. split; [reflexivity|]. split; [reflexivity|]. split; [reflexivity|].
    intros x y. reflexivity.
Qed.
