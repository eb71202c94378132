(** MVSmall.v -- C77: voting power is at most 60 * 10^18 times the tokens, so that with any realistic number of
    tokens no call meets a number too big. *)

From Verif Require Export MVFits3 MVMoney MVTotals.

(** ** The power of a position *)
Definition K60 : N := 60 * E18.
(** after [n] splits *)
Definition drift (n : N) (p : lpos) : Prop :=
  lp_days p < 3600 /\
  60 * lp_vp p <= lp_amount p * E18 * lp_days p + (if 1000000 <=? lp_amount p then 60 * n else 0).

Lemma calc_drift n amount days vp u : calculate_voting_power amount days = Ok vp -> drift n (mkLpos amount days vp u).
Proof.
  intros H. apply calc_Ok in H as (-> & _ & Hd & _). split; [exact Hd|]. cbn [lp_vp lp_amount lp_days].
  pose proof (N.mul_div_le (amount * E18 * days) 60). lia.
Qed.
Lemma merge_drift n p amount vp : drift n p -> calculate_voting_power amount (lp_days p) = Ok vp ->
  drift n (mkLpos (lp_amount p + amount) (lp_days p) (lp_vp p + vp) None).
Proof.
  intros [H1 H2] H. apply calc_Ok in H as (-> & _ & Hd & _). split; [exact Hd|]. cbn [lp_vp lp_amount lp_days].
  pose proof (N.mul_div_le (amount * E18 * lp_days p) 60) as Hm. rewrite !N.mul_add_distr_r, N.mul_add_distr_l.
  destruct (1000000 <=? lp_amount p) eqn:E1; destruct (1000000 <=? lp_amount p + amount) eqn:E2; nb; lia.
Qed.
Lemma split_drift n p amount vp u : drift n p -> calculate_voting_power amount (lp_days p) = Ok vp ->
  amount < lp_amount p -> 1000000 <= lp_amount p - amount ->
  drift (n + 1) (mkLpos (lp_amount p - amount) (lp_days p) (lp_vp p - vp) u).
Proof.
  intros [H1 H2] H Ha Hb. apply calc_Ok in H as (-> & _ & Hd & _). split; [exact Hd|]. cbn [lp_vp lp_amount lp_days].
  assert (Hm : amount * E18 * lp_days p < 60 * (amount * E18 * lp_days p / 60) + 60).
  { pose proof (N.div_mod (amount * E18 * lp_days p) 60 ltac:(lia)). pose proof (N.mod_lt (amount * E18 * lp_days p) 60 ltac:(lia)). lia. }
  rewrite !N.mul_sub_distr_r, N.mul_sub_distr_l.
  assert (E1 : (1000000 <=? lp_amount p) = true) by (apply N.leb_le; lia).
  assert (E2 : (1000000 <=? lp_amount p - amount) = true) by (apply N.leb_le; lia). rewrite E1 in H2. rewrite E2.
  assert (Hle : amount * E18 * lp_days p <= lp_amount p * E18 * lp_days p) by (apply N.mul_le_mono_r, N.mul_le_mono_r; lia). lia.
Qed.
Lemma drift_mono n m p : n <= m -> drift n p -> drift m p.
Proof. intros H [H1 H2]. split; [exact H1|]. destruct (1000000 <=? lp_amount p); lia. Qed.
Lemma drift_unl n p u : drift n p -> drift n (mkLpos (lp_amount p) (lp_days p) (lp_vp p) u).
Proof. intros [H1 H2]. split; [exact H1|exact H2]. Qed.

Notation AD n l := (Forall (drift n) l).
Lemma dep1_drift n s v amount days v' : dep1 s v amount days v' -> AD n (v_lps v) -> AD n (v_lps v').
Proof. apply dep1_pos; [intros; apply calc_drift; assumption|intros; apply merge_drift; assumption]. Qed.
Lemma deps_drift n s v l v' : deps s v l v' -> AD n (v_lps v) -> AD n (v_lps v').
Proof. apply deps_pos; [intros; apply calc_drift; assumption|intros; apply merge_drift; assumption]. Qed.
Lemma vchg_drift n c s o s' e vid v v' : vchg c s o s' e vid v v' -> AD n (v_lps v) -> AD (n + 1) (v_lps v').
Proof.
  intros H Ha0. assert (Ha : AD (n + 1) (v_lps v)) by (eapply Forall_impl; [exact Ha0|]; intros p; apply drift_mono; lia).
  destruct H; cbn [v_lps] in *.
  - eapply dep1_drift; eauto.
  - eapply dep1_drift; eauto.
  - eapply deps_drift; eauto.
  - apply Forall_insert; [exact Ha|]. apply drift_unl. eapply Forall_lookup_1; eauto.
  - apply Forall_app. split.
    + apply Forall_insert; [exact Ha|]. apply split_drift; auto. eapply Forall_lookup_1; eauto.
    + constructor; [|constructor]. apply calc_drift. assumption.
  - apply Forall_insert; [exact Ha|]. apply calc_drift. assumption.
  - eapply dep1_drift; [eassumption|]. cbn. apply Forall_swap_remove. exact Ha.
  - eapply dep1_drift; [eassumption|]. cbn. apply Forall_insert; [exact Ha|]. apply calc_drift. assumption.
  - eapply dep1_drift; [eassumption|]. cbn. apply Forall_swap_remove. exact Ha.
  - eapply dep1_drift; [eassumption|]. exact Ha.
  - eapply clears_pos; eauto.
  - eapply clears_pos; eauto.
  - exact Ha.
  - match goal with H : same_lps _ _ |- _ => destruct H as [_ ->] end. exact Ha.
  - match goal with H : v_lps v' = _ |- _ => rewrite H end. apply zip_pos; [|assumption]. intros. apply calc_drift. assumption.
Qed.

Lemma drift_run a s0 tr : mv_new a = Ok s0 ->
  allv (fun v => AD (N.of_nat (length tr)) (v_lps v)) (run s0 tr).
Proof.
  intros H0. induction tr as [|x tr IH] using rev_ind.
  { eapply allv_init; [|exact H0]. intros w. constructor. }
  rewrite run_app, app_length. cbn [length run fold_left]. replace (N.of_nat (length tr + 1)) with (N.of_nat (length tr) + 1) by lia.
  assert (Hk : allv (fun v => AD (N.of_nat (length tr) + 1) (v_lps v)) (run s0 tr)).
  { destruct IH as [H1 H2]. split; [exact H1|]. intros vid. eapply Forall_impl; [apply H2|]. intros p. apply drift_mono. lia. }
  unfold step. destruct (exec x.1 (run s0 tr) x.2) as [[s' e]|m] eqn:E; [|exact Hk]. cbn [fst].
  destruct IH as [Hnd Ha]. apply exec_cases in E as [_ [(E & _)|(vid & v' & Hst & Hch)]].
  - split; [rewrite E; exact Hnd|]. intros w. unfold get_voter. rewrite E. apply Hk.
  - pose proof (fun w => store_get _ _ _ _ w Hnd Hst) as G. split; [apply (G vid)|].
    intros w. destruct (G w) as (_ & [E|[E|E]] & _); rewrite E; [apply Hk| |constructor].
    eapply vchg_drift; [exact Hch|apply Ha].
Qed.

(** fewer than 2^64 calls leave every position with at most 60 * 10^18 per token unit *)
Definition lean (p : lpos) : Prop := lp_vp p <= K60 * lp_amount p /\ lp_days p < 3600.
Lemma drift_lean n p : n < 2 ^ 64 -> drift n p -> lean p.
Proof.
  intros Hn [Hd H]. split; [|exact Hd]. unfold K60.
  assert (H3 : lp_amount p * E18 * lp_days p <= lp_amount p * E18 * 3599) by (apply N.mul_le_mono_l; lia).
  assert (E : E18 = 10 ^ 18) by reflexivity. rewrite E in *.
  assert (Hn' : 60 * n <= 1000000 * 10 ^ 18).
  { change (2 ^ 64) with 18446744073709551616 in Hn. change (1000000 * 10 ^ 18) with 1000000000000000000000000. lia. }
  destruct (1000000 <=? lp_amount p) eqn:E1; [|lia]. nb.
  assert (H4 : 1000000 * 10 ^ 18 <= lp_amount p * 10 ^ 18) by (apply N.mul_le_mono_r; exact E1). lia.
Qed.
Lemma lean_run a s0 tr vid : mv_new a = Ok s0 -> N.of_nat (length tr) < 2 ^ 64 -> Forall lean (v_lps (get_voter (run s0 tr) vid)).
Proof. intros H0 Hn. destruct (drift_run a s0 tr H0) as [_ H]. eapply Forall_impl; [apply H|]. intros p. apply drift_lean. exact Hn. Qed.

(** ** Sums *)
Lemma sum_slack {A} (f g : A -> N) l x d : (forall y, f y <= g y) -> In x l -> f x + d <= g x -> sum_by f l + d <= sum_by g l.
Proof.
  intros H. induction l as [|y l IH]; intros Hin Hx; [destruct Hin|]. rewrite !sum_by_cons. destruct Hin as [->|Hin].
  - pose proof (sum_by_le f g l (fun z _ => H z)). lia.
  - specialize (IH Hin Hx). specialize (H y). lia.
Qed.

Definition isl (p : lpos) : bool := match lp_unl p with None => true | _ => false end.
Definition lamt (l : list lpos) : N := sum_by (fun p => if isl p then lp_amount p else 0) l.
Definition uamt (l : list lpos) : N := sum_by (fun p => if isl p then 0 else lp_amount p) l.
Definition lvp (l : list lpos) : N := sum_by (fun p => if isl p then lp_vp p else 0) l.
Lemma amt_parts l : sum_by lp_amount l = lamt l + uamt l.
Proof. unfold lamt, uamt. rewrite <- sum_by_add. apply sum_by_ext. intros p _. destruct (isl p); lia. Qed.
Lemma lvp_le l : Forall lean l -> lvp l <= K60 * lamt l.
Proof.
  induction 1 as [|p l [Hp _] _ IH]; [unfold lvp, lamt; rewrite !sum_by_nil; lia|].
  unfold lvp, lamt in *. rewrite !sum_by_cons. destruct (isl p); lia.
Qed.
Lemma lvp_slack l p : Forall lean l -> In p l -> isl p = true -> lvp l + K60 * lp_amount p <= K60 * lamt l + lp_vp p.
Proof.
  intros Hl. induction Hl as [|q l [Hq _] Hl IH]; intros Hin Hp; [destruct Hin|].
  unfold lvp, lamt in *. rewrite !sum_by_cons. destruct Hin as [->|Hin].
  - rewrite Hp. pose proof (lvp_le l Hl) as H. unfold lvp, lamt in H. lia.
  - specialize (IH Hin Hp). destruct (isl q); lia.
Qed.

Definition LA (s : state) : N := sum_by (fun vid => lamt (v_lps (get_voter s vid))) (voter_ids s).
Lemma locked_power_eq s vid : locked_power s vid = lvp (v_lps (get_voter s vid)).
Proof.
  unfold locked_power, get_all_locking_positions, lvp. apply sum_by_imap. intros i p. unfold isl. cbn. unfold is_locked. destruct (lp_unl p); reflexivity.
Qed.
Lemma positions_amount_eq s vid : positions_amount s vid = sum_by lp_amount (v_lps (get_voter s vid)).
Proof. unfold positions_amount, get_all_locking_positions. apply sum_by_imap. reflexivity. Qed.
Lemma voter_in s vid : In vid (voter_ids s) \/ get_voter s vid = new_voter vid.
Proof.
  destruct (om_get (voters s) vid) as [v|] eqn:E.
  - left. apply elem_of_list_In. eapply om_get_Some_key. exact E.
  - right. unfold get_voter. rewrite E. reflexivity.
Qed.
Lemma sum_by_mul_l {A} k (f : A -> N) l : sum_by (fun x => k * f x) l = k * sum_by f l.
Proof. induction l as [|x l IH]; [rewrite !sum_by_nil; lia|]. rewrite !sum_by_cons, IH. lia. Qed.

Section Small.
Context (a : init_args) (s0 : state) (tr : list call) (H0 : mv_new a = Ok s0) (Hcf : collision_free tr) (Hlen : N.of_nat (length tr) < 2 ^ 64).
Notation s := (run s0 tr).

Lemma total_le : total_vp s <= sum_by (fun vid => lvp (v_lps (get_voter s vid))) (voter_ids s).
Proof.
  pose proof (inv_run a s0 tr H0 Hcf) as HI. pose proof (inv_total _ _ _ HI) as E. unfold get_total_voting_power in E. rewrite E.
  apply sum_by_le. intros vid _. destruct (inv_used _ _ _ vid HI) as (u & Hu & _ & Hb).
  cbn in Hb. rewrite N.add_0_r in Hb. unfold used_or0. rewrite Hu. rewrite <- locked_power_eq. exact Hb.
Qed.
Lemma total_lean : total_vp s <= K60 * LA s.
Proof.
  etransitivity; [apply total_le|]. unfold LA. rewrite <- sum_by_mul_l. apply sum_by_le. intros vid _. apply lvp_le. eapply lean_run; eassumption.
Qed.
Lemma total_slack vid p : In p (v_lps (get_voter s vid)) -> isl p = true -> total_vp s + K60 * lp_amount p <= K60 * LA s + lp_vp p.
Proof.
  intros Hp Hl. pose proof (lean_run a s0 tr vid H0 Hlen) as Hall. pose proof (proj1 (List.Forall_forall _ _) Hall p Hp) as [Hlp _].
  pose proof (lvp_slack _ p Hall Hp Hl) as Hs. destruct (voter_in s vid) as [Hin|E]; [|rewrite E in Hp; destruct Hp].
  pose proof total_le as Ht.
  pose proof (sum_slack (fun vid => lvp (v_lps (get_voter s vid))) (fun vid => K60 * lamt (v_lps (get_voter s vid))) (voter_ids s) vid
    (K60 * lp_amount p - lp_vp p)) as HH. rewrite sum_by_mul_l in HH. fold (LA s) in HH.
  assert (sum_by (fun vid => lvp (v_lps (get_voter s vid))) (voter_ids s) + (K60 * lp_amount p - lp_vp p) <= K60 * LA s); [|lia].
  apply HH; [intros y; apply lvp_le; eapply lean_run; eassumption|exact Hin|cbn beta; lia].
Qed.
Lemma owed_parts vid : LA s + uamt (v_lps (get_voter s vid)) + v_bal (get_voter s vid) + uncl_mp s <= mp_owed s.
Proof.
  clear Hlen Hcf H0. unfold mp_owed, get_total_unclaimed_mpdao. destruct (voter_in s vid) as [Hin|E].
  - assert (H : LA s + (uamt (v_lps (get_voter s vid)) + v_bal (get_voter s vid)) <= sum_by (fun vid => raw_balance s vid + positions_amount s vid) (voter_ids s)); [|lia].
    unfold LA. apply sum_slack with (x := vid); [|exact Hin|]; intros; cbn beta; rewrite positions_amount_eq, amt_parts; unfold raw_balance; lia.
  - rewrite E. change (uamt (v_lps (new_voter vid))) with 0. change (v_bal (new_voter vid)) with 0.
    assert (H : LA s <= sum_by (fun vid => raw_balance s vid + positions_amount s vid) (voter_ids s)); [|lia].
    unfold LA. apply sum_by_le. intros y _. rewrite positions_amount_eq, amt_parts. lia.
Qed.
Lemma lamt_le vid : lamt (v_lps (get_voter s vid)) <= LA s.
Proof.
  clear Hlen Hcf H0. destruct (voter_in s vid) as [Hin|E].
  - unfold LA. apply (sum_ge (fun vid => lamt (v_lps (get_voter s vid)))). exact Hin.
  - rewrite E. change (lamt (v_lps (new_voter vid))) with 0. lia.
Qed.
End Small.
