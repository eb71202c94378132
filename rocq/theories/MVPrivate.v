(** MVPrivate.v -- C79: the specification of a call that acts on one account reads and writes that account only. *)

From Verif Require Export MVSpecPrivate MVStep8.

(** the parts of the ledger that calls acting on [w] can see *)
Definition agree (w : string) (L M : ledger) : Prop :=
  settings L = settings M /\ same_account w L M /\ (forall e, l_deleg L e = l_deleg M e).
(** what no such call changes *)
Definition rest (L M : ledger) : Prop :=
  settings L = settings M /\ (forall e, l_deleg L e = l_deleg M e) /\ (forall e, l_pre L e = l_pre M e) /\
  (forall e, l_evms L e = l_evms M e) /\ l_mp_ever L = l_mp_ever M /\ l_st_ever L = l_st_ever M.

Lemma sac_refl w L : same_account w L L.
Proof. split; [apply same_acct_refl|auto]. Qed.
Lemma sac_sym w L M : same_account w L M -> same_account w M L.
Proof. intros (H1 & H2 & H3 & H4). split; [apply sa_sym; exact H1|auto]. Qed.
Lemma sac_trans w L M N : same_account w L M -> same_account w M N -> same_account w L N.
Proof. intros (H1 & H2 & H3 & H4) (K1 & K2 & K3 & K4). split; [eapply same_acct_trans; eauto|]. split; [congruence|]. split; congruence. Qed.
Lemma agree_refl w L : agree w L L.
Proof. split; [reflexivity|]. split; [apply sac_refl|reflexivity]. Qed.
Lemma agree_sym w L M : agree w L M -> agree w M L.
Proof. intros (H1 & H2 & H3). split; [auto|]. split; [apply sac_sym; exact H2|]. intros e. symmetry. auto. Qed.
Lemma agree_trans w L M N : agree w L M -> agree w M N -> agree w L N.
Proof. intros (H1 & H2 & H3) (K1 & K2 & K3). split; [congruence|]. split; [eapply sac_trans; eauto|]. intros e. etransitivity; eauto. Qed.
Lemma rest_refl L : rest L L.
Proof. unfold rest. auto 10. Qed.
Lemma rest_sym L M : rest L M -> rest M L.
Proof. intros (H1 & H2 & H3 & H4 & H5 & H6). unfold rest. repeat (split; [auto|]). auto. Qed.
Lemma rest_trans L M N : rest L M -> rest M N -> rest L N.
Proof.
  intros (H1 & H2 & H3 & H4 & H5 & H6) (K1 & K2 & K3 & K4 & K5 & K6). unfold rest.
  repeat (split; [first [congruence|intros; etransitivity; eauto]|]). congruence.
Qed.
Lemma same_agree w L M : same L M -> agree w L M.
Proof. intros H. same_inv H. split; [exact S1|]. split; [|exact S13]. split; [apply S2|]. split; [apply S5|]. split; [apply S8|apply S11]. Qed.
Lemma same_rest L M : same L M -> rest L M.
Proof. intros H. same_inv H. unfold rest. auto 10. Qed.

Ltac rs := unfold rest; repeat (split; [reflexivity|]); reflexivity.
Ltac sr := split; [apply same_acct_eq; reflexivity|split; [reflexivity|split; reflexivity]].

(** ** Frame *)
Definition aside (v : string) (L M : ledger) : Prop := rest L M /\ forall w, w <> v -> same_account w L M.
Lemma fr_refl v L : aside v L L.
Proof. split; [rs|]. intros w _. sr. Qed.
Lemma fr_trans v L M N : aside v L M -> aside v M N -> aside v L N.
Proof. intros [H1 H2] [K1 K2]. split; [eapply rest_trans; eauto|]. intros w Hw. eapply sac_trans; eauto. Qed.
Lemma fr_on v f L : aside v L (on v f L).
Proof.
  split; [rs|]. intros w Hw. split; [|cbn; auto]. unfold on. cbn [l_acct set]. rewrite put_ne by exact Hw. apply same_acct_refl.
Qed.
Lemma fr_power v L p : aside v L (L <| l_power := p |>).
Proof. split; [rs|]. intros w _. sr. Qed.
Lemma fr_lock v n d L : aside v L (lock_for v n d L).
Proof. unfold lock_for. eapply fr_trans; [apply fr_on|apply fr_power]. Qed.
Lemma fr_votes v x y n L : aside v L (set_votes v x y n L).
Proof. unfold set_votes. eapply fr_trans; [apply fr_on|]. split; [rs|]. intros w _. sr. Qed.
Lemma fr_take_mp v n L : aside v L (take_mp v n L).
Proof.
  split; [rs|]. intros w Hw. split; [apply same_acct_eq; reflexivity|]. unfold take_mp. cbn [l_mp l_st l_data set]. rewrite put_ne by exact Hw. auto.
Qed.
Lemma fr_take_st v n L : aside v L (take_st v n L).
Proof.
  split; [rs|]. intros w Hw. split; [apply same_acct_eq; reflexivity|]. unfold take_st. cbn [l_mp l_st l_data set]. rewrite put_ne by exact Hw. auto.
Qed.
Lemma fr_at_pos v w k f L : (forall p, aside v L (f p)) -> aside v L (at_pos L w k f).
Proof. intros H. unfold at_pos. destruct (a_pos (l_acct L w) !! k); [apply H|apply fr_refl]. Qed.

Lemma aside_next c o v L : acts_on (c, o) = Some v -> aside v L (next c L o).
Proof.
  unfold acts_on. cbn [fst snd]. destruct o; try discriminate; try (injection 1 as <-); cbn [next].
  - split; [rs|]. intros w Hw. split; [apply same_acct_eq; reflexivity|]. cbn [l_mp l_st l_data set]. rewrite put_ne by exact Hw. auto.
  - eapply fr_trans; [apply fr_take_mp|apply fr_lock].
  - apply fr_take_st.
  - apply fr_at_pos. intros p. eapply fr_trans; [apply fr_on|apply fr_power].
  - apply fr_at_pos. intros p. destruct (amount =? p_amount p); (eapply fr_trans; [apply fr_on|apply fr_power]).
  - apply fr_at_pos. intros p. eapply fr_trans; [apply fr_on|apply fr_power].
  - apply fr_at_pos. intros p. eapply fr_trans; [apply fr_on|apply fr_lock].
  - apply fr_at_pos. intros p. eapply fr_trans; [apply fr_on|apply fr_lock].
  - eapply fr_trans; [apply fr_on|apply fr_lock].
  - apply fr_on.
  - apply fr_votes.
  - apply fr_votes.
  - apply fr_votes.
  - apply fr_take_st.
  - apply fr_votes.
  - apply fr_votes.
  - apply fr_on.
  - apply fr_on.
  - destruct ok; [apply fr_refl|apply fr_on].
  - destruct ok; [apply fr_refl|]. split; [rs|]. intros w Hw. split; [apply same_acct_eq; reflexivity|].
    cbn [l_mp l_st l_data set]. rewrite put_ne by exact Hw. auto.
  - destruct (after_prefix "for-claims:" msg); [discriminate|]. destruct (lock_target c sender msg) as [[w d]|]; intros [= <-]; [apply fr_lock|apply fr_refl].
Qed.

(** ** Locality *)
Section Local.
Context (w : string).
Lemma ag_on f g L M : agree w L M -> same_acct (f (l_acct L w)) (g (l_acct M w)) -> agree w (on w f L) (on w g M).
Proof.
  intros (H1 & (H2 & H3) & H4) Ha. split; [exact H1|]. split; [|exact H4]. split; [|exact H3]. unfold on. cbn [l_acct set]. rewrite !put_eq. exact Ha.
Qed.
Lemma ag_power p q L M : agree w L M -> agree w (L <| l_power := p |>) (M <| l_power := q |>).
Proof. exact (fun h => h). Qed.
Lemma ag_lock n d L M : agree w L M -> agree w (lock_for w n d L) (lock_for w n d M).
Proof. intros H. unfold lock_for. apply ag_power, ag_on; [exact H|]. apply sa_blind; [apply bl_lock|apply H]. Qed.
Lemma ag_votes x y n n' L M : agree w L M -> n = n' -> agree w (set_votes w x y n L) (set_votes w x y n' M).
Proof.
  intros H <-. pose proof H as (_ & ((E1 & E2 & E3 & E4 & E5 & E6) & _) & _). unfold set_votes.
  enough (A : agree w (on w (fun a => a <| a_votes := put2 x y n (a_votes a) |> <| a_free := a_free a + a_votes (l_acct L w) x y - n |>
                   <| a_used := a_used a + n - a_votes (l_acct L w) x y |>) L)
     (on w (fun a => a <| a_votes := put2 x y n (a_votes a) |> <| a_free := a_free a + a_votes (l_acct M w) x y - n |>
                   <| a_used := a_used a + n - a_votes (l_acct M w) x y |>) M)) by exact A.
  apply ag_on; [exact H|]. unfold same_acct. cbn [a_voter a_bal a_pos a_free a_used a_votes set]. rewrite E4, E5, E6.
  repeat (split; [assumption || reflexivity|]). intros u v. unfold put2. destruct (decide _); [reflexivity|apply E6].
Qed.
Lemma ag_take_mp n L M : agree w L M -> agree w (take_mp w n L) (take_mp w n M).
Proof.
  intros (H1 & (H2 & H3 & H5) & H4). split; [exact H1|]. split; [|exact H4]. split; [exact H2|]. unfold take_mp. cbn [l_mp l_st l_data set].
  rewrite !put_eq, H3. auto.
Qed.
Lemma ag_take_st n L M : agree w L M -> agree w (take_st w n L) (take_st w n M).
Proof.
  intros (H1 & (H2 & H3 & H5 & H6) & H4). split; [exact H1|]. split; [|exact H4]. split; [exact H2|]. unfold take_st. cbn [l_mp l_st l_data set].
  rewrite !put_eq, H5. auto.
Qed.
Lemma ag_at_pos k f g L M : agree w L M -> (forall p, agree w (f p) (g p)) -> agree w (at_pos L w k f) (at_pos M w k g).
Proof.
  intros H Hf. pose proof H as (_ & ((_ & _ & E & _) & _) & _). unfold at_pos. rewrite E.
  destruct (a_pos (l_acct M w) !! k); [apply Hf|exact H].
Qed.
End Local.

Lemma ag_paid c L M ks n : agree (c_pred c) L M -> paid c L ks n = paid c M ks n.
Proof.
  intros (_ & (H & _) & _). unfold paid, collected_acct. destruct (sa_blind _ _ _ (bl_collect (now_ms c) ks) H) as (_ & E & _). rewrite E. reflexivity.
Qed.

Lemma local_next c o w L M : acts_on (c, o) = Some w -> agree w L M -> agree w (next c L o) (next c M o).
Proof.
  unfold acts_on. cbn [fst snd]. intros Hw H. assert (Ha : same_acct (l_acct L w) (l_acct M w)) by apply H.
  destruct o; try discriminate Hw; try (injection Hw as <-); cbn [next].
  - destruct H as (H1 & (H2 & H3 & H5 & H6) & H4). split; [exact H1|]. split; [|exact H4]. split; [exact H2|]. cbn [l_mp l_st l_data set].
    rewrite !put_eq. auto.
  - apply ag_lock, ag_take_mp, H.
  - apply ag_take_st, H.
  - apply ag_at_pos; [exact H|]. intros p. apply ag_power, ag_on; [exact H|]. apply sa_blind; [apply bl_unlock|exact Ha].
  - apply ag_at_pos; [exact H|]. intros p. destruct (amount =? p_amount p); apply ag_power, ag_on; try exact H;
      (apply sa_blind; [first [apply bl_unlock|apply bl_unlock_part]|exact Ha]).
  - apply ag_at_pos; [exact H|]. intros p. apply ag_power, ag_on; [exact H|]. apply sa_blind; [apply bl_extend|exact Ha].
  - apply ag_at_pos; [exact H|]. intros p. apply ag_lock, ag_on; [exact H|].
    apply (sa_blind (fun a => a <| a_pos := take_out i (a_pos a) |> <| a_bal := a_bal a - afb |>)); [|exact Ha]. intros [] g; split; reflexivity.
  - apply ag_at_pos; [exact H|]. intros p. apply ag_lock, ag_on; [exact H|]. apply sa_blind; [apply bl_relock_part|exact Ha].
  - apply ag_lock, ag_on; [exact H|]. apply (sa_blind (fun a => a <| a_bal := a_bal a - amount |>)); [|exact Ha]. intros [] g; split; reflexivity.
  - apply ag_on; [exact H|]. apply sa_blind; [apply bl_collect|exact Ha].
  - apply ag_votes; [exact H|]. destruct Ha as (_ & _ & _ & _ & _ & E). rewrite E. reflexivity.
  - apply ag_votes; [exact H|reflexivity].
  - apply ag_votes; [exact H|reflexivity].
  - apply ag_take_st, H.
  - apply ag_votes; [exact H|]. destruct Ha as (_ & _ & _ & _ & _ & E). rewrite E. reflexivity.
  - apply ag_votes; [exact H|reflexivity].
  - rewrite (ag_paid c L M _ _ H). apply ag_on; [exact H|]. apply sa_pay, sa_blind; [apply bl_collect|exact Ha].
  - rewrite (ag_paid c L M _ _ H). apply ag_on; [exact H|]. apply sa_pay, sa_blind; [apply bl_collect|exact Ha].
  - destruct ok; [exact H|]. apply ag_on; [exact H|].
    apply (sa_blind (fun a => a <| a_voter := true |> <| a_bal := a_bal a + amount |>)); [|exact Ha]. intros [] g; split; reflexivity.
  - destruct ok; [exact H|]. destruct H as (H1 & (H2 & H3 & H5 & H6) & H4). split; [exact H1|]. split; [|exact H4]. split; [exact H2|].
    cbn [l_mp l_st l_data set]. rewrite !put_eq, H5. auto.
  - destruct (after_prefix "for-claims:" msg); [discriminate Hw|]. destruct (lock_target c sender msg) as [[v d]|]; [|exact H].
    injection Hw as <-. apply ag_lock, H.
Qed.

Lemma ag_settings w L M : agree w L M -> l_self L = l_self M /\ l_owner L = l_owner M /\ l_mpdao L = l_mpdao M /\
  l_stnear L = l_stnear M /\ l_min_days L = l_min_days M /\ l_max_days L = l_max_days M /\
  l_min_deposit L = l_min_deposit M /\ l_max_pos L = l_max_pos M /\ l_max_addr L = l_max_addr M /\ l_fee L = l_fee M /\ l_hold L = l_hold M.
Proof. intros [H _]. unfold settings in H. injection H. auto 20. Qed.

Lemma local_pays c o w L M : acts_on (c, o) = Some w -> agree w L M -> pays c L o = pays c M o.
Proof.
  unfold acts_on. cbn [fst snd]. intros Hw H. destruct (ag_settings _ _ _ H) as (_ & _ & _ & F & _).
  destruct o; try reflexivity; try (injection Hw as <-); cbn [pays]; rewrite ?F, ?(ag_paid c L M _ _ H); reflexivity.
Qed.

Lemma local_enabled c o w L M : acts_on (c, o) = Some w -> agree w L M -> enabled c L o -> enabled c M o.
Proof.
  unfold acts_on. cbn [fst snd]. intros Hw H. pose proof (ag_settings _ _ _ H) as (F1 & F2 & F4 & F5 & F7 & F8 & F9 & F10 & F11 & F12 & F13).
  pose proof H as (_ & ((A1 & A2 & A3 & A4 & A5 & A6) & S5 & S8 & _) & S13).
  assert (B1 : forall d f, may_lock L w d f -> may_lock M w d f).
  { intros d f. unfold may_lock, pos_locked_for, npos. rewrite F7, F8, F10, A3. auto. }
  assert (B2 : forall n, may_vote L w n -> may_vote M w n).
  { intros n. unfold may_vote. rewrite A1, A4, F11. intros (H1 & H2 & vs & H3 & H4 & H5). split; [exact H1|]. split; [exact H2|].
    exists vs. split; [exact H3|]. split; [|exact H5]. intros x. rewrite H4. split; intros [y Hy]; exists y; [rewrite <- A6|rewrite A6]; exact Hy. }
  assert (B3 : forall x y, held L (now_ms c) x y <-> held M (now_ms c) x y) by (intros; unfold held; rewrite F13; reflexivity).
  assert (B4 : forall x y, may_unvote L (now_ms c) w x y -> may_unvote M (now_ms c) w x y).
  { intros x y. unfold may_unvote. rewrite A6, B3. auto. }
  assert (B5 : forall e v, delegated_to L e v -> delegated_to M e v).
  { intros e v [g E]. exists g. rewrite <- S13. exact E. }
  assert (B6 : forall ks, a_bal (collect_acct (now_ms c) ks (l_acct L w)) = a_bal (collect_acct (now_ms c) ks (l_acct M w))).
  { intros ks. apply (sa_blind _ _ _ (bl_collect (now_ms c) ks)). apply H. }
  destruct o; try discriminate Hw; try (injection Hw as <-); cbn [enabled]; cbv zeta;
    rewrite ?F1, ?F2, ?F4, ?F5, ?F7, ?F8, ?F9, ?F10, ?F11, ?F12, ?A1, ?A2, ?A3, ?A4, ?A6, ?S5, ?S8, ?B6; try exact (fun h => h).
  - intros (H1 & H2 & H3 & H4 & H5). auto 10.
  - intros (H1 & p & H2 & H3). split; [exact H1|]. exists p. split; [exact H2|]. unfold npos in *. rewrite A3 in H3. exact H3.
  - intros (H1 & H2 & p & t & H3 & H4 & H5 & H6). split; [exact H1|]. split; [exact H2|]. exists p, t. auto 10.
  - intros (H1 & H2 & H0 & p & t & H3 & H4 & H5 & H6 & H7). split; [exact H1|]. split; [exact H2|]. split; [exact H0|]. exists p, t.
    split; [exact H3|]. split; [exact H4|]. split; [exact H5|]. split; [exact H6|].
    destruct H7 as [(? & ? & ?)|(? & ?)]; [left|right]; auto.
  - intros (H1 & H2 & H3 & H4 & H5). auto 10.
  - intros (H1 & H2). auto.
  - rewrite B3. exact (fun h => h).
  - intros (H1 & H2). auto.
  - intros (H1 & H2). auto.
  - intros (H1 & H2 & H3). auto.
  - intros (H1 & H2 & H3). auto.
  - intros (H1 & H2 & H3). split; [exact H1|]. split; [exact H2|]. destruct (after_prefix "for-claims:" msg); [exact H3|].
    destruct H3 as (H3 & H4 & H5 & v & days & H6 & H7 & H8). split; [exact H3|]. split; [exact H4|]. split; [exact H5|]. exists v, days.
    rewrite H6 in Hw. injection Hw as ->. auto.
Qed.
