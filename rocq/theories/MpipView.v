(** MpipView.v -- reported states, pages of proposals and voting windows (C62-C64). *)

From Verif Require Export MpipSpec MpipInv MpipLife MpipTime.

(** ** C62 *)
Lemma LI_ms a s0 tr now id p :
  mpip_new a = Ok s0 -> mtimed tr -> Forall (fun x => event_ts x / 1000000 <= now) tr ->
  om_get (m_proposals (w_m (wrun (winit s0) tr))) id = Some p ->
  (pr_draft p = false -> exists d e q, pr_start p = Some d /\ pr_end p = Some e /\ pr_quorum p = Some q /\ d <= e /\ d <= now).
Proof.
  intros H0 Ht Hall Hp.
  assert (HL : LI (now * 1000000 + 999999) (wrun (winit s0) tr)).
  { apply LI_reach with a; [exact H0|exact Ht|]. eapply List.Forall_impl; [|exact Hall]. intros x Hx. cbn in Hx.
    pose proof (N.div_mod' (event_ts x) 1000000). pose proof (N.mod_lt (event_ts x) 1000000 ltac:(discriminate)). lia. }
  apply HL in Hp as [_ HP]. replace ((now * 1000000 + 999999) / 1000000) with now in HP; [exact HP|].
  symmetry. rewrite N.add_comm, N.div_add by discriminate. reflexivity.
Qed.

Lemma c62 a s0 tr now id p :
  mpip_new a = Ok s0 -> mtimed tr -> Forall (fun x => event_ts x / 1000000 <= now) tr ->
  let s := w_m (wrun (winit s0) tr) in
  get_proposal s id = Ok p -> tally s id VFor + tally s id VAbstain < 2 ^ 128 ->
  exists st, get_proposal_state now s id = Ok st /\ reported now s id p st.
Proof.
  intros H0 Ht Hall s Hp Hb. unfold get_proposal in Hp. pose proof Hp as Hg. apply get_mpip_Ok in Hg.
  pose proof (LI_ms _ _ _ _ _ _ H0 Ht Hall Hg) as HP. unfold get_proposal_state. rewrite Hp. cbn [mbind res_bind].
  destruct (pr_executed p) eqn:E1; [exists StExecuted; split; [reflexivity|exact E1]|].
  destruct (pr_canceled p) eqn:E2; [exists StCanceled; split; [reflexivity|cbn; auto]|].
  destruct (pr_draft p) eqn:E3; [exists StDraft; split; [reflexivity|cbn; auto]|].
  destruct (HP eq_refl) as (d & e & q & Ed & Ee & Eq & Hde & Hdn).
  unfold is_on_voting. rewrite Ed, (proj2 (N.leb_le _ _) Hdn), Ee.
  cbn [expect mbind res_bind]. rewrite E1, E2, E3. cbn [negb]. rewrite !andb_true_r.
  destruct (N.leb_spec now e) as [Hx|Hx].
  { exists StVotingProcess. split; [reflexivity|]. exists d, e. auto 10. }
  unfold is_active. rewrite Ed. destruct (N.leb_spec now d) as [Hy|Hy]; [lia|]. cbn [andb].
  unfold is_quorum_reached. rewrite Hp. cbn [mbind res_bind]. rewrite Eq. cbn [expect mbind res_bind].
  assert (Eadd : add128 (pv_for (get_pvote s id)) (pv_abstain (get_pvote s id))
                 = Ok (pv_for (get_pvote s id) + pv_abstain (get_pvote s id))).
  { unfold add128. rewrite !tally_eq in Hb. cbn [tally_of] in Hb.
    destruct (N.ltb_spec (pv_for (get_pvote s id) + pv_abstain (get_pvote s id)) U128_SIZE) as [?|Hge]; [reflexivity|].
    exfalso. change U128_SIZE with (2 ^ 128) in Hge. lia. }
  rewrite Eadd. cbn [mbind res_bind]. unfold get_proposal_vote_succeeded.
  assert (Hw : window_over now p) by (exists e; auto 10).
  assert (Hpass : passed s id p <-> (q <=? pv_for (get_pvote s id) + pv_abstain (get_pvote s id)) &&
                    (pv_against (get_pvote s id) <? pv_for (get_pvote s id)) = true).
  { unfold passed. rewrite !tally_eq. cbn [tally_of]. rewrite andb_true_iff, N.leb_le, N.ltb_lt, Eq. split.
    - intros (q' & [= <-] & ?). tauto.
    - intros ?. exists q. tauto. }
  destruct ((q <=? _) && _)%bool.
  - exists StAccepted. split; [reflexivity|]. split; [exact Hw|]. apply Hpass. reflexivity.
  - exists StRejected. split; [reflexivity|]. split; [exact Hw|]. rewrite Hpass. discriminate.
Qed.

(** at most one state fits *)
Lemma reported_unique now s id p st st' : reported now s id p st -> reported now s id p st' -> st = st'.
Proof.
  unfold reported, window_over, in_window. intros H H'.
  destruct st, st'; try reflexivity; try contradiction; exfalso;
    repeat match goal with
    | H : _ /\ _ |- _ => destruct H
    | H : ex _ |- _ => destruct H
    end; try congruence; try contradiction.
  - match goal with H1 : pr_end p = Some ?x, H2 : pr_end p = Some ?y |- _ =>
      assert (x = y) by congruence; lia end.
  - match goal with H1 : pr_end p = Some ?x, H2 : pr_end p = Some ?y |- _ =>
      assert (x = y) by congruence; lia end.
  - match goal with H1 : pr_end p = Some ?x, H2 : pr_end p = Some ?y |- _ =>
      assert (x = y) by congruence; lia end.
  - match goal with H1 : pr_end p = Some ?x, H2 : pr_end p = Some ?y |- _ =>
      assert (x = y) by congruence; lia end.
Qed.

(** ** C63 *)
Lemma mapMr_ext {A B} (f g : A -> res B) l : (forall x, In x l -> f x = g x) -> mapMr f l = mapMr g l.
Proof.
  induction l as [|x l IH]; intros H; [reflexivity|]. cbn. rewrite (H x (or_introl eq_refl)).
  destruct (g x); cbn; [|reflexivity]. rewrite IH by (intros y Hy; apply H; right; exact Hy). reflexivity.
Qed.
Lemma mapMr_total {A B} (f : A -> res B) l : (forall x, In x l -> exists y, f x = Ok y) -> exists r, mapMr f l = Ok r.
Proof.
  induction l as [|x l IH]; intros H; [eexists; reflexivity|]. destruct (H x (or_introl eq_refl)) as [y Hy].
  destruct IH as [r Hr]; [intros z Hz; apply H; right; exact Hz|]. exists (y :: r). cbn. rewrite Hy. cbn. rewrite Hr. reflexivity.
Qed.
Lemma dense_lookup n i : (i < n)%nat -> dense n !! i = Some (N.of_nat i).
Proof. intros H. unfold dense. change map with (@fmap list _ nat N) || idtac. rewrite list_lookup_fmap, lookup_seq_lt by exact H. reflexivity. Qed.

Lemma c63_page w tr from limit : mreach w tr -> few_proposals (w_m w) -> let s := w_m w in
  let n := n_proposals s in
  exists l, proposals_of s (seq from (Nat.min limit (n - from))) = Ok l /\
    get_proposals s from limit = Ok (if decide (from < n)%nat then Some l else None).
Proof.
  intros Hr Hf s n. pose proof (KI_reach _ _ Hr Hf) as HK. fold s in HK.
  assert (Hk : forall i, (i < n)%nat -> exists p, om_get (m_proposals s) (N.of_nat i) = Some p).
  { intros i Hi. apply om_keys_get. rewrite (ki_keys _ HK). apply elem_of_list_In, In_dense. lia. }
  destruct (mapMr_total (fun i => get_proposal s (N.of_nat i)) (seq from (Nat.min limit (n - from)))) as [l Hl].
  { intros i Hi. apply in_seq in Hi. destruct (Hk i) as [p Hp]; [lia|]. exists p. apply get_mpip_Ok. exact Hp. }
  exists l. split; [exact Hl|]. unfold get_proposals. fold (n_proposals s). fold n.
  destruct (Nat.leb_spec n from) as [Hle|Hlt]; [rewrite decide_False by lia; reflexivity|].
  rewrite decide_True by lia. replace (Nat.min (from + limit) n - from)%nat with (Nat.min limit (n - from)) by lia.
  rewrite (mapMr_ext _ (fun i => get_proposal s (N.of_nat i))); [rewrite Hl; reflexivity|].
  intros i Hi. apply in_seq in Hi. rewrite (ki_keys _ HK). fold n.
  change (map N.of_nat (seq 0 n)) with (dense n). rewrite dense_lookup by lia. cbn [expect mbind res_bind].
  destruct (Hk i) as [p Hp]; [lia|]. rewrite Hp. symmetry. apply get_mpip_Ok. exact Hp.
Qed.

Lemma mapMr_app {A B} (f : A -> res B) l1 l2 r1 r2 : mapMr f l1 = Ok r1 -> mapMr f l2 = Ok r2 -> mapMr f (l1 ++ l2) = Ok (r1 ++ r2).
Proof.
  revert r1. induction l1 as [|x l1 IH]; intros r1 H1 H2; cbn in *; [injection H1 as <-; exact H2|].
  apply bind_Ok in H1 as (y & Hy & H1). apply bind_Ok in H1 as (r & Hr & H1). injection H1 as <-.
  rewrite Hy. cbn. rewrite (IH _ Hr H2). reflexivity.
Qed.
Lemma c63_walk w tr k m : mreach w tr -> few_proposals (w_m w) ->
  exists l, proposals_of (w_m w) (seq 0 (Nat.min (m * k) (n_proposals (w_m w)))) = Ok l /\ walk_proposals (w_m w) k m = Ok l.
Proof.
  intros Hr Hf. induction m as [|m (l & Hl & IH)]; [exists []; split; reflexivity|].
  destruct (c63_page w tr (m * k) k Hr Hf) as (l' & Hl' & Hp). cbv zeta in Hl', Hp. cbn [walk_proposals]. rewrite IH. cbn [mbind res_bind].
  rewrite Hp. cbn [mbind res_bind]. case_decide as Hd; cbn [default].
  - exists (l ++ l'). split; [|reflexivity]. rewrite Nat.min_l in Hl by lia.
    pose proof (mapMr_app _ _ _ _ _ Hl Hl') as H. unfold proposals_of. rewrite <- H. f_equal.
    rewrite <- seq_app. f_equal. cbn. lia.
  - exists l. split; [|rewrite app_nil_r; reflexivity]. rewrite <- Hl. do 2 f_equal. cbn. lia.
Qed.

(** ** C64 *)
Lemma c64 w tr x id p p' : mreach w tr -> few_proposals (w_m w) -> let s := w_m w in
  get_proposal s id = Ok p -> get_proposal (w_m (wstep w x)) id = Ok p' ->
  (pr_start p', pr_end p', pr_draft p') <> (pr_start p, pr_end p, pr_draft p) ->
  exists i ts n t q, x = MAnswer i ts (ABytes (Some n) t) /\ w_pend w !! i = Some q /\ pd_kind q = KStart id /\
    pr_start p' = Some (ts / 1000000) /\ pr_end p' = Some (ts / 1000000 + m_period s) /\ pr_draft p' = false /\
    ts / 1000000 + m_period s < 2 ^ 64.
Proof.
  intros Hr Hf s Hp Hp' Hne. subst s. pose proof (KI_reach _ _ Hr Hf) as HK. apply get_mpip_Ok in Hp, Hp'.
  destruct (pmove_step w x id p HK Hf Hp) as (p1 & Hp1 & Hm). assert (p1 = p') as -> by congruence.
  destruct Hm as [|c o p' _ Hc|i ts q n t Ex Hi Hk Hb _].
  - contradiction.
  - exfalso. apply Hne. destruct Hc; reflexivity.
  - exists i, ts, n, t, q. auto 10.
Qed.
