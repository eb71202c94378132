(** MVBooks.v -- C83 without provisos: after any history whatever, all tallies and all unused power together are at most
    the total voting power. *)

From Verif Require Export MVCover MVCases.

Definition inner (m : list (string * N)) : N := om_sum (fun _ n => n) m.
Definition tallied (s : state) : N := om_sum (fun _ m => inner m) (votes s).
Definition avs (s : state) : N := om_sum (fun _ v => v_avail v) (voters s).
Definition WV (s : state) : Prop := NoDup (votes s).*1 /\ Forall (fun am => NoDup am.2.*1) (votes s).
Record J (s : state) : Prop := { j_wv : WV s; j_le : tallied s + avs s <= total_vp s; j_nd : NoDup (voters s).*1 }.

(** [s], [v] -> [s'], [v']: a voter in hand *)
Definition rel (s : state) (v : voter) (s' : state) (v' : voter) : Prop :=
  voters s' = voters s /\ WV s' /\ tallied s' + v_avail v' + total_vp s = tallied s + v_avail v + total_vp s'.

Lemma rel_save s v s' v' vid : J s -> v_avail (get_voter s vid) = v_avail v -> rel s v s' v' -> J (save_voter s' vid v').
Proof.
  intros [H1 H2 H3] Hv (E1 & E2 & E3). constructor; [exact E2| |].
  - change (tallied s' + om_sum (fun _ v => v_avail v) (om_set (voters s') vid v') <= total_vp s'). rewrite E1. unfold avs in H2.
    unfold get_voter in Hv. destruct (om_get (voters s) vid) as [v0|] eqn:E; cbn [default from_option] in Hv; unfold Datatypes.id in Hv.
    + pose proof (om_sum_set_old (fun (_ : string) v => v_avail v) _ _ _ v' E) as K. cbn beta in K. lia.
    + pose proof (om_sum_set_new (fun (_ : string) v => v_avail v) _ _ v' E) as K. cbn beta in K. cbn [v_avail new_voter] in Hv. lia.
  - change (NoDup (om_set (voters s') vid v').*1). rewrite E1. apply om_set_NoDup. exact H3.
Qed.
Lemma J_same s s' : J s -> votes s' = votes s -> voters s' = voters s -> total_vp s' = total_vp s -> J s'.
Proof. intros [H1 H2 H3] E1 E2 E3. constructor; unfold WV, tallied, avs in *; rewrite ?E1, ?E2, ?E3; assumption. Qed.
Lemma avail_le s vid : v_avail (get_voter s vid) <= avs s.
Proof.
  unfold get_voter. destruct (om_get (voters s) vid) as [v|] eqn:E; cbn [default from_option]; [|cbn [v_avail new_voter]; lia].
  apply (om_sum_ge (fun (_ : string) v => v_avail v) _ _ _ E).
Qed.

(** *** tallies *)
Lemma inner_nodup s a : WV s -> NoDup (default [] (om_get (votes s) a)).*1.
Proof.
  intros [_ H]. destruct (om_get (votes s) a) as [m|] eqn:E; [|constructor]. cbn [default from_option].
  apply om_get_Some_In, elem_of_list_In in E. rewrite Forall_forall in H. exact (H _ E).
Qed.
Lemma outer_set_all (m : list (string * list (string * N))) a x : Forall (fun am => NoDup am.2.*1) m -> NoDup x.*1 ->
  Forall (fun am => NoDup am.2.*1) (om_set m a x).
Proof.
  intros H Hx. induction H as [|[k y] m Hy Hm IH]; cbn [om_set]; [repeat constructor; exact Hx|]. case_decide; constructor; auto.
Qed.
Lemma tallied_set s a x : votes s = votes s -> tallied (s <| votes := om_set (votes s) a x |>) + inner (default [] (om_get (votes s) a)) = tallied s + inner x.
Proof.
  intros _. unfold tallied. change (votes (s <| votes := om_set (votes s) a x |>)) with (om_set (votes s) a x).
  destruct (om_get (votes s) a) as [m|] eqn:E; cbn [default from_option].
  - pose proof (om_sum_set_old (fun (_ : string) m => inner m) _ _ _ x E) as K. cbn beta in K. unfold Datatypes.id. lia.
  - pose proof (om_sum_set_new (fun (_ : string) m => inner m) _ _ x E) as K. cbn beta in K. change (inner []) with 0. lia.
Qed.
Lemma inc_J s vp a b s' : WV s -> increase_total_votes s vp a b = Ok s' ->
  WV s' /\ tallied s' = tallied s + vp /\ voters s' = voters s /\ total_vp s' = total_vp s.
Proof.
  intros HW H. unfold increase_total_votes in H. rinv. set (m := default [] (om_get (votes s) a)) in *.
  pose proof (inner_nodup s a HW) as Hm. fold m in Hm. split; [|split; [|split; reflexivity]].
  - destruct HW as [W1 W2]. split; [apply om_set_NoDup; exact W1|]. apply outer_set_all; [exact W2|apply om_set_NoDup; exact Hm].
  - pose proof (tallied_set s a (om_set m b (default 0 (om_get m b) + vp)) eq_refl) as K. fold m in K.
    assert (Ei : inner (om_set m b (default 0 (om_get m b) + vp)) = inner m + vp).
    { unfold inner. destruct (om_get m b) as [n|] eqn:Eb; cbn [default from_option].
      - pose proof (om_sum_set_old (fun (_ : string) n => n) _ _ _ (n + vp) Eb) as K2. cbn beta in K2. unfold Datatypes.id. lia.
      - pose proof (om_sum_set_new (fun (_ : string) n => n) _ _ (0 + vp) Eb) as K2. cbn beta in K2. lia. }
    rewrite Ei in K. lia.
Qed.
Lemma dec_J s vp a b s' : WV s -> decrease_total_votes s vp a b = Ok s' ->
  WV s' /\ tallied s' + vp = tallied s /\ voters s' = voters s /\ total_vp s' = total_vp s.
Proof.
  intros HW H. unfold decrease_total_votes in H. cbv zeta in H. apply bind_Ok in H as (x & E & H). apply expect_Ok in E.
  apply bind_Ok in H as (u & Hle & H). apply require_Ok in Hle. apply bind_Ok in H as (y & Hy & H). apply sub128_Ok in Hy as [-> _]. injection H as <-. nb. set (m := default [] (om_get (votes s) a)) in *. rename x into n.
  pose proof (inner_nodup s a HW) as Hm. fold m in Hm.
  set (m' := if n - vp =? 0 then om_remove m b else om_set m b (n - vp)) in *.
  assert (Hm' : NoDup m'.*1) by (unfold m'; destruct (_ =? _); [apply om_remove_NoDup|apply om_set_NoDup]; exact Hm).
  assert (Ei : inner m' + vp = inner m).
  { unfold m', inner. destruct (n - vp =? 0) eqn:E0; nb.
    - pose proof (om_sum_remove (fun (_ : string) n => n) _ _ _ E) as K. cbn beta in K. lia.
    - pose proof (om_sum_set_old (fun (_ : string) n => n) _ _ _ (n - vp) E) as K. cbn beta in K. lia. }
  assert (Hs : exists m0, om_get (votes s) a = Some m0).
  { destruct (om_get (votes s) a) eqn:Eg; [eauto|]. unfold m in E. cbn in E. discriminate E. }
  destruct Hs as [m0 Eg]. assert (m = m0) by (unfold m; rewrite Eg; reflexivity). subst m0.
  split; [|split; [|split; reflexivity]].
  - destruct HW as [W1 W2]. split; cbn [votes set].
    + change (NoDup ((match m' with [] => om_remove (votes s) a | _ => om_set (votes s) a m' end)).*1). destruct m'; [apply om_remove_NoDup|apply om_set_NoDup]; exact W1.
    + change (Forall (fun am => NoDup am.2.*1) (match m' with [] => om_remove (votes s) a | _ => om_set (votes s) a m' end)).
      assert (W3 : Forall (fun am => NoDup am.2.*1) (om_set (votes s) a m')) by (apply outer_set_all; assumption).
      destruct m'; [|exact W3]. apply Forall_forall. intros x Hx. rewrite Forall_forall in W2. apply W2.
      pose proof (om_remove_cons _ _ _ Eg) as HP. rewrite HP. right. exact Hx.
  - change (om_sum (fun _ m => inner m) (match m' with [] => om_remove (votes s) a | _ => om_set (votes s) a m' end) + vp = tallied s).
    pose proof (om_sum_remove (fun (_ : string) m => inner m) _ _ _ Eg) as K1. pose proof (om_sum_set_old (fun (_ : string) m => inner m) _ _ _ m' Eg) as K2. cbn beta in K1, K2.
    unfold tallied. destruct m' as [|p r] eqn:Em; [change (inner []) with 0 in *; lia|lia].
Qed.

(** *** a voter in hand *)
Lemma rel_refl s v v' : WV s -> v_avail v' = v_avail v -> rel s v s v'.
Proof. intros H E. split; [reflexivity|]. split; [exact H|]. rewrite E. lia. Qed.
Lemma rel_trans s v s1 v1 s2 v2 : rel s v s1 v1 -> rel s1 v1 s2 v2 -> rel s v s2 v2.
Proof. intros (A1 & A2 & A3) (B1 & B2 & B3). split; [congruence|]. split; [exact B2|]. lia. Qed.
Lemma rel_keep s v v1 s2 v2 : v_avail v1 = v_avail v -> rel s v1 s2 v2 -> rel s v s2 v2.
Proof. intros E (B1 & B2 & B3). split; [exact B1|]. split; [exact B2|]. lia. Qed.
Lemma rel_total s v t v' : WV s -> v_avail v' + total_vp s = v_avail v + t -> rel s v (s <| total_vp := t |>) v'.
Proof.
  intros H E. split; [reflexivity|]. split; [exact H|]. change (tallied (s <| total_vp := t |>)) with (tallied s).
  change (total_vp (s <| total_vp := t |>)) with t. lia.
Qed.
Lemma create_lp_rel s v n d s' v' : WV s -> internal_create_locking_position s v n d = Ok (s', v') -> rel s v s' v'.
Proof. intros HW H. apply create_lp_inv in H as (vp & _ & _ & _ & _ & _ & -> & ->). apply rel_total; [exact HW|]. cbn [v_avail]. lia. Qed.
Lemma increase_lp_rel s v i n d s' v' : WV s -> increase_locking_position s v i n d = Ok (s', v') -> rel s v s' v'.
Proof. intros HW H. unfold increase_locking_position in H. rinv. apply rel_total; [exact HW|]. cbn [v_avail set]. lia. Qed.

Lemma create_vp_rel s vid v vp a b s' v' : WV s -> internal_create_voting_position s vid v vp a b = Ok (s', v') -> rel s v s' v'.
Proof.
  intros HW H. unfold internal_create_voting_position in H. rinv. nb.
  match goal with H : increase_total_votes ?s1 _ _ _ = Ok _ |- _ => apply (inc_J s1) in H as (A1 & A2 & A3 & A4); [|exact HW] end.
  split; [exact A3|]. split; [exact A1|]. rewrite A2, A4. cbn [v_avail set].
  match goal with |- tallied ?s1 + _ + _ + _ = _ + _ + total_vp ?s2 => change (tallied s1) with (tallied s); change (total_vp s2) with (total_vp s) end. lia.
Qed.
Lemma remove_vp_rel s vid v a b s' v' x h : WV s -> get_vote_position_for_address s v vid a = Ok h -> uget (hp_vv s) h b = Ok (Some x) ->
  internal_remove_voting_position s vid v a b = Ok (s', v') -> rel s v s' v' /\ tallied s' + x = tallied s /\ total_vp s' = total_vp s.
Proof.
  intros HW Hh Hx H. unfold internal_remove_voting_position in H.
  apply bind_Ok in H as (h2 & E0 & H). rewrite Hh in E0. injection E0 as <-.
  apply bind_Ok in H as (x2 & E1 & H). rewrite Hx in E1. injection E1 as <-. apply bind_Ok in H as (x3 & E2 & H). apply expect_Ok in E2. injection E2 as <-.
  rinv. match goal with H : decrease_total_votes ?s1 _ _ _ = Ok _ |- _ => apply (dec_J s1) in H as (A1 & A2 & A3 & A4); [|exact HW] end.
  match type of A2 with _ = tallied ?s1 => change (tallied s1) with (tallied s) in A2 end. match type of A4 with _ = total_vp ?s1 => change (total_vp s1) with (total_vp s) in A4 end.
  split; [|split; [exact A2|exact A4]]. split; [exact A3|]. split; [exact A1|]. rewrite A4. cbn [v_avail set]. lia.
Qed.

Lemma remove_vp_J s vid v a b s' v' : WV s -> internal_remove_voting_position s vid v a b = Ok (s', v') -> rel s v s' v'.
Proof.
  intros HW H. pose proof H as H2. unfold internal_remove_voting_position in H2. apply bind_Ok in H2 as (h & E1 & H2). apply bind_Ok in H2 as (o & E2 & H2).
  apply bind_Ok in H2 as (x & E3 & _). apply expect_Ok in E3. subst o. apply (remove_vp_rel s vid v a b s' v' x h HW E1 E2 H).
Qed.
Lemma mirror_loop_rel fuel : forall s vid v u new s' v' u', WV s -> mirror_loop fuel s vid v u new = Ok (s', v', u') ->
  rel s v s' v' /\ tallied s' + u = tallied s + u' /\ total_vp s' = total_vp s.
Proof.
  induction fuel as [|fuel IH]; intros s vid v u new s' v' u' HW H; cbn [mirror_loop] in H; destruct (new <? u) eqn:El; try discriminate.
  - injection H as <- <- <-. split; [apply rel_refl; [exact HW|reflexivity]|]. split; reflexivity.
  - apply bind_Ok in H as (ok & _ & H). apply bind_Ok in H as (addr & _ & H). apply bind_Ok in H as (oh & Hh & H). apply bind_Ok in H as (h & Eh & H).
    apply expect_Ok in Eh. subst oh. apply bind_Ok in H as (oo & _ & H). apply bind_Ok in H as (obj & _ & H).
    apply bind_Ok in H as (ov & Hv & H). apply bind_Ok in H as (x & Ex & H). apply expect_Ok in Ex. subst ov.
    apply bind_Ok in H as ([s1 v1] & Hrm & H). apply bind_Ok in H as (u1 & Hu & H). apply sub128_Ok in Hu as [-> Hu].
    assert (Hg : get_vote_position_for_address s v vid addr = Ok h) by (unfold get_vote_position_for_address; rewrite Hh; reflexivity).
    destruct (remove_vp_rel s vid v addr obj s1 v1 x h HW Hg Hv Hrm) as (R1 & R2 & R3).
    destruct (IH _ _ _ _ _ _ _ _ (proj1 (proj2 R1)) H) as (S1 & S2 & S3). split; [eapply rel_trans; eassumption|]. split; [lia|congruence].
  - injection H as <- <- <-. split; [apply rel_refl; [exact HW|reflexivity]|]. split; reflexivity.
Qed.
Lemma create_lps_rel l : forall s v s' v', WV s ->
  foldM (fun sv lp => internal_create_locking_position sv.1 sv.2 lp.2 lp.1) l (s, v) = Ok (s', v') -> rel s v s' v' /\ tallied s' = tallied s.
Proof.
  induction l as [|lp l IH]; intros s v s' v' HW H; simpl in H.
  { injection H as <- <-. split; [apply rel_refl; [exact HW|reflexivity]|reflexivity]. }
  destruct (internal_create_locking_position s v lp.2 lp.1) as [[s1 v1]|] eqn:E; [|discriminate].
  pose proof (create_lp_rel _ _ _ _ _ _ HW E) as R. apply create_lp_inv in E as (vp & _ & _ & _ & _ & _ & E1 & _).
  apply IH in H as [H1 H2]; [|apply R]. split; [eapply rel_trans; eassumption|]. rewrite H2, E1. reflexivity.
Qed.

(** *** calls *)
Lemma deposit_J s n d vid v s' v' : J s -> v_avail (get_voter s vid) = v_avail v ->
  deposit_locking_position s n d vid v = Ok (s', v') -> J s' /\ get_voter s' vid = v'.
Proof.
  intros HJ Hv H. unfold deposit_locking_position in H. apply bind_Ok in H as (? & _ & H). apply bind_Ok in H as ([s1 v1] & H1 & H). injection H as <- <-.
  assert (R : rel s v s1 v1) by (destruct (find_locked_position v d); [eapply increase_lp_rel|eapply create_lp_rel]; try eassumption; apply HJ).
  split; [eapply rel_save; eassumption|]. unfold get_voter. cbn [voters save_voter set]. rewrite om_get_set_eq. reflexivity.
Qed.
Lemma migrate_J l : forall s vid v s' v', J s -> v_avail (get_voter s vid) = v_avail v ->
  foldM (fun sv lp => deposit_locking_position sv.1 (lp.1 / E18) lp.2 vid sv.2) l (s, v) = Ok (s', v') -> J s'.
Proof.
  induction l as [|lp l IH]; intros s vid v s' v' HJ Hv H; simpl in H; [injection H as <- <-; exact HJ|].
  destruct (deposit_locking_position s (lp.1 / E18) lp.2 vid v) as [[s1 v1]|] eqn:E; [|discriminate].
  destruct (deposit_J _ _ _ _ _ _ _ HJ Hv E) as [J1 E1]. eapply IH; [exact J1| |exact H]. cbn [fst snd]. rewrite E1. reflexivity.
Qed.
Lemma mirror_J c s ext l s' : J s -> operator_mirror_lps c s ext l = Ok s' -> J s'.
Proof.
  intros HJ H. unfold operator_mirror_lps in H. cbv zeta in H. set (vid := pseudo_near_address ext) in *. set (v := get_voter s vid) in *.
  apply bind_Ok in H as (? & _ & H). apply bind_Ok in H as (? & _ & H). apply bind_Ok in H as (u & _ & H). apply bind_Ok in H as (prev & Hp & H).
  apply add128_Ok in Hp as [-> _]. apply bind_Ok in H as (vps & _ & H). apply bind_Ok in H as (new & _ & H).
  apply bind_Ok in H as ([[s1 v1] u1] & Hl & H). apply bind_Ok in H as ([s2 v3] & Hc & H). apply bind_Ok in H as (av & Ha & H). apply sub128_Ok in Ha as [-> Ha].
  apply bind_Ok in H as (t & Ht & H). apply sub128_Ok in Ht as [-> Ht]. injection H as <-.
  destruct (mirror_loop_rel _ _ _ _ _ _ _ _ _ (j_wv _ HJ) Hl) as ((A1 & A2 & A3) & A4 & A5).
  destruct (create_lps_rel _ _ _ _ _ A2 Hc) as ((B1 & B2 & B3) & B4). cbn [v_avail set] in B3.
  apply (rel_save s v (s2 <| total_vp := total_vp s2 - (v_avail v + u) |>)); [exact HJ|reflexivity|].
  split; [change (voters s2 = voters s); congruence|]. split; [exact B2|].
  change (tallied s2 + (v_avail v3 - u1) + total_vp s = tallied s + v_avail v + (total_vp s2 - (v_avail v + u))). lia.
Qed.
Lemma clears_avail now v v' : clears now v v' -> v_avail v' = v_avail v.
Proof. induction 1; [reflexivity|]. cbn [v_avail]. exact IHclears. Qed.
Lemma panic_voter s vid v : get_voter_or_panic s vid = Ok v -> get_voter s vid = v.
Proof. intros H. apply expect_Ok in H. unfold get_voter. rewrite H. reflexivity. Qed.
Lemma withdraw_J c s vid l amt s' e : J s -> internal_withdraw c s vid l amt = Ok (s', e) -> J s'.
Proof.
  intros HJ H. unfold internal_withdraw in H. cbv zeta in H. apply bind_Ok in H as (? & _ & H). apply bind_Ok in H as (v & Hv & H).
  apply bind_Ok in H as (v1 & H1 & H). apply bind_Ok in H as (? & _ & H). apply bind_Ok in H as (? & _ & H). apply bind_Ok in H as (b & _ & H). injection H as <- _.
  assert (Ea : v_avail v1 = v_avail v) by (destruct l; [injection H1 as <-; reflexivity|eapply clears_avail, clear_clears; exact H1]).
  destruct (voter_is_empty _).
  - pose proof (panic_voter _ _ _ Hv) as Eg. apply expect_Ok in Hv. destruct HJ as [H2 H3 H4]. constructor; [exact H2| |].
    + change (tallied s + om_sum (fun _ v => v_avail v) (om_remove (voters s) vid) <= total_vp s).
      pose proof (om_sum_remove (fun (_ : string) v => v_avail v) _ _ _ Hv) as K. cbn beta in K. unfold avs in H3. lia.
    + apply om_remove_NoDup. exact H4.
  - apply (rel_save s v); [exact HJ|rewrite (panic_voter _ _ _ Hv); reflexivity|]. apply rel_refl; [apply HJ|exact Ea].
Qed.
Lemma unvote_J c s vid a b s' : J s -> internal_unvote c s vid a b = Ok s' -> J s'.
Proof.
  intros HJ H. unfold internal_unvote in H. apply bind_Ok in H as (? & _ & H). apply bind_Ok in H as (v & Hv & H). apply bind_Ok in H as ([s1 v1] & H1 & H).
  injection H as <-. apply (rel_save s v); [exact HJ|rewrite (panic_voter _ _ _ Hv); reflexivity|]. eapply remove_vp_J; [apply HJ|exact H1].
Qed.
Lemma vote_J s vid n a b s' : J s -> internal_vote s vid n a b = Ok s' -> J s'.
Proof.
  intros HJ H. unfold internal_vote in H. apply bind_Ok in H as (v & Hv & H). apply bind_Ok in H as ([s1 v1] & H1 & H).
  injection H as <-. apply (rel_save s v); [exact HJ|rewrite (panic_voter _ _ _ Hv); reflexivity|]. eapply create_vp_rel; [apply HJ|exact H1].
Qed.
Lemma rebalance_J c s n a b s' : J s -> rebalance c s n a b = Ok s' -> J s'.
Proof.
  intros HJ H. unfold rebalance in H. cbv zeta in H. apply bind_Ok in H as (u0 & _ & H). apply bind_Ok in H as (v & Hv & H).
  apply bind_Ok in H as (h & _ & H). apply bind_Ok in H as (o & _ & H). apply bind_Ok in H as (x0 & _ & H). apply bind_Ok in H as (u1 & _ & H).
  destruct (n =? 0); [eapply unvote_J; eassumption|]. apply bind_Ok in H as ([[s1 av] w] & H1 & H).
  apply bind_Ok in H as ([hv h'] & _ & H). apply bind_Ok in H as ([hp vph] & _ & H). injection H as <-.
  apply (rel_save s v); [exact HJ|rewrite (panic_voter _ _ _ Hv); reflexivity|].
  assert (R : voters s1 = voters s /\ WV s1 /\ tallied s1 + av = tallied s + v_avail v /\ total_vp s1 = total_vp s).
  { destruct (x0 <? n).
    - apply bind_Ok in H1 as (d & Hd & H1). apply sub128_Ok in Hd as [-> _]. apply bind_Ok in H1 as (? & Hr & H1). apply require_Ok in Hr. nb.
      apply bind_Ok in H1 as (y & Hy & H1). apply sub128_Ok in Hy as [-> _]. apply bind_Ok in H1 as (z & _ & H1). apply bind_Ok in H1 as (s2 & Hs & H1). injection H1 as <- <- <-.
      apply inc_J in Hs as (A1 & A2 & A3 & A4); [|apply HJ]. split; [exact A3|]. split; [exact A1|]. split; [lia|exact A4].
    - apply bind_Ok in H1 as (d & Hd & H1). apply sub128_Ok in Hd as [-> _]. apply bind_Ok in H1 as (y & Hy & H1). apply add128_Ok in Hy as [-> _].
      apply bind_Ok in H1 as (z & _ & H1). apply bind_Ok in H1 as (s2 & Hs & H1). injection H1 as <- <- <-.
      apply dec_J in Hs as (A1 & A2 & A3 & A4); [|apply HJ]. split; [exact A3|]. split; [exact A1|]. split; [lia|exact A4]. }
  destruct R as (A1 & A2 & A3 & A4). split; [exact A1|]. split; [exact A2|].
  change (tallied s1 + av + total_vp s = tallied s + v_avail v + total_vp s1). lia.
Qed.
(** the saturating subtraction does not saturate *)
Lemma less_J s vid v vp v' : J s -> get_voter s vid = v -> vp <= v_avail v -> v_avail v' = v_avail v - vp ->
  J (save_voter (s <| total_vp := total_vp s - vp |>) vid v').
Proof.
  intros HJ Hv Hle E. apply (rel_save s v); [exact HJ|rewrite Hv; reflexivity|]. apply rel_total; [apply HJ|].
  pose proof (avail_le s vid) as Ha. rewrite Hv in Ha. pose proof (j_le _ HJ). lia.
Qed.
Lemma unlock_J c s i s' : J s -> unlock_position c s i = Ok s' -> J s'.
Proof.
  intros HJ H. unfold unlock_position in H. cbv zeta in H. apply bind_Ok in H as (v & Hv & H). apply bind_Ok in H as (p & _ & H).
  apply bind_Ok in H as (? & Hr & H). apply require_Ok in Hr. apply bind_Ok in H as (av & Ha & H). apply sub128_Ok in Ha as [-> _]. injection H as <-. nb.
  eapply less_J; [exact HJ|apply panic_voter; exact Hv|exact Hr|reflexivity].
Qed.
Lemma claimable_J s who n s' : J s -> remove_claimable_mpdao s who n = Ok s' \/ remove_claimable_stnear s who n = Ok s' \/ add_claimable_stnear s who n = Ok s' \/
  add_claimable_mpdao s who n = Ok s' -> J s' /\ voters s' = voters s.
Proof.
  intros HJ [H|[H|[H|H]]]; [unfold remove_claimable_mpdao in H|unfold remove_claimable_stnear in H|unfold add_claimable_stnear in H|unfold add_claimable_mpdao in H]; rinv;
    (split; [eapply J_same; [exact HJ|reflexivity..]|reflexivity]).
Qed.
Ltac bnd x Hx H := apply bind_Ok in H as (x & Hx & H).
Lemma unlock_partial_J c s i a s' : J s -> unlock_partial_position c s i a = Ok s' -> J s'.
Proof.
  intros HJ H. unfold unlock_partial_position in H. cbv zeta in H. bnd v Hv H. bnd p Hp H. destruct (a =? lp_amount p); [eapply unlock_J; eassumption|].
  bnd u1 K1 H. bnd d K2 H. bnd u2 K3 H. bnd u3 K4 H. bnd vp K5 H. bnd u4 K6 H. bnd u5 Hr H. apply require_Ok in Hr. bnd v1 Hc H.
  bnd pvp K7 H. bnd pa K8 H. bnd u6 K9 H. bnd av Ha H. apply sub128_Ok in Ha as [-> _]. injection H as <-. nb.
  assert (E : v_avail v1 = v_avail v) by (unfold create_unlocking_position in Hc; bnd u7 K10 Hc; injection Hc as <-; reflexivity).
  eapply less_J; [exact HJ|apply panic_voter; exact Hv|exact Hr|]. change (v_avail v1 - vp = v_avail v - vp). rewrite E. reflexivity.
Qed.
Lemma extend_J c s i d s' : J s -> locking_position_extend_days c s i d = Ok s' -> J s'.
Proof.
  intros HJ H. unfold locking_position_extend_days in H. cbv zeta in H. bnd u0 K0 H. bnd v Hv H. bnd p Hp H. bnd u1 K1 H. bnd u2 K2 H. bnd nvp K3 H.
  bnd delta K4 H. bnd t Ht H. apply add128_Ok in Ht as [-> _]. bnd av Ha H. apply add128_Ok in Ha as [-> _]. injection H as <-.
  apply (rel_save s v); [exact HJ|rewrite (panic_voter _ _ _ Hv); reflexivity|]. apply rel_total; [apply HJ|].
  change (v_avail v + delta + total_vp s = v_avail v + (total_vp s + delta)). lia.
Qed.
Lemma remove_avail v i v' : remove_position v i = Ok v' -> v_avail v' = v_avail v.
Proof. unfold remove_position. intros H. bnd l K0 H. injection H as <-. reflexivity. Qed.
Lemma relock_J c s i d a s' : J s -> relock_position c s i d a = Ok s' -> J s'.
Proof.
  intros HJ H. unfold relock_position in H. cbv zeta in H. bnd u0 K0 H. bnd v Hv H. bnd p Hp H. bnd u1 K1 H. bnd st K2 H. bnd u2 K3 H. bnd amount K4 H.
  bnd v1 Hr H. bnd b K5 H. apply bind_Ok in H as ([s2 v2] & H & E). injection E as <-.
  apply deposit_J in H as [H _]; [exact H|exact HJ|]. rewrite (panic_voter _ _ _ Hv). symmetry. apply (remove_avail _ _ _ Hr).
Qed.
Lemma relock_partial_J c s i p0 d a s' : J s -> relock_partial_position c s i p0 d a = Ok s' -> J s'.
Proof.
  intros HJ H. unfold relock_partial_position in H. cbv zeta in H. bnd u0 K0 H. bnd v Hv H. bnd p Hp H. bnd u1 K1 H. bnd u2 K2 H. bnd amount K4 H. bnd u3 K3 H. bnd st K5 H.
  bnd v1 Hr H. bnd b K6 H. apply bind_Ok in H as ([s2 v2] & H & E). injection E as <-.
  apply deposit_J in H as [H _]; [exact H|exact HJ|]. rewrite (panic_voter _ _ _ Hv). symmetry. change (v_avail v1 = v_avail v).
  destruct (now_ms c <? _).
  - bnd u4 K7 Hr. bnd na K8 Hr. bnd u5 K9 Hr. bnd u6 K10 Hr. bnd nvp K11 Hr. injection Hr as <-. reflexivity.
  - bnd rest K7 Hr. bnd b2 K8 Hr. apply remove_avail in Hr. exact Hr.
Qed.
Definition touch (o : op) : bool :=
  match o with
  | MigrationCreateLps _ _ _ | FtOnTransfer _ _ _ | AfterMp _ _ _
  | MirrorLps _ _ | ClaimAndLock _ _ | Unlock _ | UnlockPartial _ _ | ExtendDays _ _ | Relock _ _ _
  | RelockPartial _ _ _ _ | RelockFromBalance _ _ | ClearPositions _ | Withdraw _ _ | WithdrawAll
  | Vote _ _ _ | Rebalance _ _ _ | Unvote _ _ | VoteDelegated _ _ _ _ | UnvoteDelegated _ _ _ => true
  | _ => false
  end.
Lemma vchg_touch c s o s' e w v v' : vchg c s o s' e w v v' -> touch o = true.
Proof.
  intros H. destruct H; try reflexivity.
  - match goal with H : _ \/ _ |- _ => destruct H as [->| ->] end; reflexivity.
  - match goal with H : _ \/ _ |- _ => destruct H as [(? & ? & ->)| ->] end; reflexivity.
  - match goal with H : _ \/ _ |- _ => destruct H as [(_ & [(? & ? & ? & ->)|[(? & ? & ? & ->)|(? & ? & ->)]])|(? & _ & [(? & ? & ? & ->)|(? & ? & ->)])] end; reflexivity.
Qed.
Lemma exec_J c s o s' e : J s -> exec c s o = Ok (s', e) -> J s'.
Proof.
  intros HJ H.
  assert (Hk : vkeep c s o s' e -> J s') by (intros (A1 & A2 & A3 & _); eapply J_same; eassumption).
  pose proof (exec_cases _ _ _ _ _ H) as [_ [K|(w & v' & _ & Hch)]]; [exact (Hk K)|]. clear Hk.
  apply vchg_touch in Hch. destruct o; try discriminate Hch; clear Hch; cbn [exec] in H.
  - apply noeff_Ok in H as [H ->]. unfold claim_and_lock in H. cbv zeta in H. bnd u0 K0 H. bnd u1 K1 H. bnd s1 K2 H. bnd v Hv H. apply bind_Ok in H as ([s2 v2] & H & E). injection E as <-.
    destruct (claimable_J _ _ _ _ HJ (or_introl K2)) as [J1 _]. apply deposit_J in H as [H _]; [exact H|exact J1|]. rewrite (panic_voter _ _ _ Hv). reflexivity.
  - apply noeff_Ok in H as [H ->]. bnd u0 K0 H. eapply unlock_J; eassumption.
  - apply noeff_Ok in H as [H ->]. bnd u0 K0 H. eapply unlock_partial_J; eassumption.
  - apply noeff_Ok in H as [H ->]. eapply extend_J; eassumption.
  - apply noeff_Ok in H as [H ->]. eapply relock_J; eassumption.
  - apply noeff_Ok in H as [H ->]. eapply relock_partial_J; eassumption.
  - apply noeff_Ok in H as [H ->]. unfold relock_from_balance in H. cbv zeta in H. bnd u0 K0 H. bnd v Hv H. bnd u1 K1 H. bnd u2 K2 H. bnd b K3 H.
    apply bind_Ok in H as ([s2 v2] & H & E). injection E as <-. apply deposit_J in H as [H _]; [exact H|exact HJ|]. rewrite (panic_voter _ _ _ Hv). reflexivity.
  - apply noeff_Ok in H as [H ->]. unfold clear_locking_position in H. cbv zeta in H. bnd u0 K0 H. bnd u1 K1 H. bnd v Hv H. bnd v1 K2 H. injection H as <-.
    apply (rel_save s v); [exact HJ|rewrite (panic_voter _ _ _ Hv); reflexivity|]. apply rel_refl; [apply HJ|]. eapply clears_avail, clear_clears. exact K2.
  - apply noeff_Ok in H as [H ->]. unfold vote in H. bnd u0 K0 H. eapply vote_J; eassumption.
  - apply noeff_Ok in H as [H ->]. eapply rebalance_J; eassumption.
  - apply noeff_Ok in H as [H ->]. unfold unvote in H. bnd u0 K0 H. eapply unvote_J; eassumption.
  - apply noeff_Ok in H as [H ->]. unfold migration_create_lps in H. bnd u0 K0 H. bnd u1 K1 H. apply bind_Ok in H as ([s1 v1] & K2 & H).
    assert (J1 : J s1) by (eapply migrate_J; [exact HJ|reflexivity|exact K2]).
    destruct data; [destruct (om_get (user_data s1) (c_pred c))|]; injection H as <-; [exact J1| |exact J1]. eapply J_same; [exact J1|reflexivity..].
  - apply noeff_Ok in H as [H ->]. eapply mirror_J; eassumption.
  - apply noeff_Ok in H as [H ->]. unfold vote_delegated in H. bnd u0 K0 H. bnd u1 K1 H. eapply vote_J; eassumption.
  - apply noeff_Ok in H as [H ->]. unfold unvote_delegated in H. bnd u0 K0 H. bnd u1 K1 H. eapply unvote_J; eassumption.
  - unfold withdraw in H. eapply withdraw_J; eassumption.
  - unfold withdraw_all in H. bnd v K0 H. eapply withdraw_J; eassumption.
  - apply noeff_Ok in H as [H ->]. unfold after_transfer_mpdao_callback in H. bnd u0 K0 H. bnd u1 K1 H. destruct ok; [injection H as <-; exact HJ|].
    cbv zeta in H. bnd b K2 H. injection H as <-. apply (rel_save s (get_voter s vid)); [exact HJ|reflexivity|]. apply rel_refl; [apply HJ|reflexivity].
  - apply bind_Ok in H as ([s1 n] & H & E). injection E as <- _. unfold ft_on_transfer in H. bnd u0 K0 H. bnd fc K1 H. destruct fc.
    + bnd l K2 H. bnd u1 K3 H. bnd s2 K4 H. injection H as <- _. apply distribute_shape in K4 as (H1 & (H2 & _) & H3 & H4). eapply J_same; eassumption.
    + bnd u1 K2 H. bnd ip K3 H. apply bind_Ok in H as ([vid days] & _ & H). bnd u2 K4 H. apply bind_Ok in H as ([s2 v2] & H & E). injection E as <- _.
      apply deposit_J in H as [H _]; [exact H|exact HJ|reflexivity].
Qed.

Lemma new_J a s0 : mv_new a = Ok s0 -> J s0.
Proof. intros H. unfold mv_new in H. rinv. constructor; [split; constructor| |constructor]. change (0 + 0 <= 0). lia. Qed.
Lemma run_J a s0 tr : mv_new a = Ok s0 -> J (run s0 tr).
Proof. intros H. apply run_inv; [eapply new_J; exact H|]. intros x s s' e _ Hs Hx. eapply exec_J; eassumption. Qed.

(** *** the views *)
Definition flat (m : list (string * list (string * N))) : list ((string * string) * N) :=
  flat_map (fun am => map (fun bn => ((am.1, bn.1), bn.2)) am.2) m.
Lemma flat_sum m : sum_by snd (flat m) = om_sum (fun _ m => inner m) m.
Proof.
  unfold flat, om_sum. induction m as [|[a y] m IH]; [reflexivity|]. cbn [flat_map fst snd]. rewrite sum_by_app, sum_by_cons, IH. cbn [snd]. f_equal.
  unfold inner, om_sum, sum_by. rewrite map_map. reflexivity.
Qed.
Lemma flat_in m k x : In (k, x) (flat m) <-> exists y, In (k.1, y) m /\ In (k.2, x) y.
Proof.
  unfold flat. rewrite in_flat_map. split.
  - intros ([a y] & H1 & H2). cbn [fst snd] in H2. apply in_map_iff in H2 as ([b n] & E & H2). injection E as <- <-. exists y. split; assumption.
  - intros (y & H1 & H2). exists (k.1, y). split; [exact H1|]. cbn [fst snd]. apply in_map_iff. exists (k.2, x). split; [destruct k; reflexivity|exact H2].
Qed.
Lemma flat_nodup m : NoDup m.*1 -> Forall (fun am => NoDup am.2.*1) m -> List.NoDup (map fst (flat m)).
Proof.
  induction m as [|[a y] m IH]; intros H1 H2; [constructor|]. apply Forall_cons in H2 as [H2 H3]. apply NoDup_cons in H1 as [H0 H1].
  change (flat ((a, y) :: m)) with (map (fun bn => ((a, bn.1), bn.2)) y ++ flat m). rewrite map_app. apply NoDup_ListNoDup, NoDup_app. split; [|split].
  - apply NoDup_ListNoDup. rewrite map_map. cbn [fst]. cbn [snd] in H2. clear -H2. induction y as [|[b n] y IHy]; [constructor|]. apply NoDup_cons in H2 as [H H2].
    cbn [map fst]. constructor; [|apply IHy; exact H2]. intros Hi. apply in_map_iff in Hi as ([b2 n2] & E & Hi). injection E as ->. apply H.
    apply elem_of_list_In, in_map_iff. exists (b, n2). split; [reflexivity|exact Hi].
  - intros k Hk Hk2. apply elem_of_list_In in Hk, Hk2. rewrite map_map in Hk. apply in_map_iff in Hk as ([b n] & <- & _). cbn [fst] in Hk2.
    apply in_map_iff in Hk2 as ([k2 x] & E & Hk2). cbn [fst] in E. subst k2. apply flat_in in Hk2 as (z & Hz & _). apply H0. apply elem_of_list_In, in_map_iff.
    exists (a, z). split; [reflexivity|exact Hz].
  - apply NoDup_ListNoDup, IH; assumption.
Qed.
Lemma om_get_in {V} (m : list (string * V)) k x : NoDup m.*1 -> In (k, x) m -> om_get m k = Some x.
Proof.
  induction m as [|[k2 y] m IH]; intros H Hi; [destruct Hi|]. apply NoDup_cons in H as [H0 H]. cbn [om_get]. destruct Hi as [E|Hi].
  - injection E as -> ->. rewrite decide_True by reflexivity. reflexivity.
  - rewrite decide_False; [apply IH; assumption|]. intros E. subst k2. apply H0, elem_of_list_In, in_map_iff. exists (k, x). split; [reflexivity|exact Hi].
Qed.
Lemma c83_never a s0 tr ps : mv_new a = Ok s0 -> List.NoDup ps ->
  votes_on (run s0 tr) ps + unused_power (run s0 tr) <= get_total_voting_power (run s0 tr).
Proof.
  intros H0 Hps. pose proof (run_J a s0 tr H0) as [[W1 W2] HJ Hnd]. set (s := run s0 tr) in *. change (get_total_voting_power s) with (total_vp s).
  assert (Ea : unused_power s = avs s).
  { unfold unused_power, avs, om_sum, voter_ids, get_available_voting_power, sum_by. rewrite map_map. f_equal. apply map_ext_in. intros [k v] Hi. cbn [fst snd].
    unfold get_voter. rewrite (om_get_in _ k v Hnd Hi). reflexivity. }
  set (qs := remove_dups (ps ++ map fst (flat (votes s)))).
  assert (Hq : List.NoDup qs) by (apply NoDup_ListNoDup, NoDup_remove_dups).
  assert (Hle : votes_on s ps <= votes_on s qs).
  { apply sum_submseteq. apply NoDup_submseteq; [apply NoDup_ListNoDup; exact Hps|]. intros k Hk. apply elem_of_remove_dups, elem_of_app. left. exact Hk. }
  assert (Eq : votes_on s qs = tallied s).
  { unfold tallied. rewrite <- flat_sum. unfold votes_on. apply (sum_on_keys (flat (votes s)) (fun p => get_total_votes s p.1 p.2)).
    - apply flat_nodup; assumption.
    - exact Hq.
    - intros k x Hk. apply flat_in in Hk as (y & H1 & H2). unfold get_total_votes. rewrite (om_get_in _ _ _ W1 H1).
      rewrite (om_get_in _ k.2 x); [reflexivity| |exact H2]. rewrite List.Forall_forall in W2. apply (W2 _ H1).
    - intros k Hk. unfold get_total_votes. destruct (om_get (votes s) k.1) as [y|] eqn:E1; [|reflexivity]. destruct (om_get y k.2) as [x|] eqn:E2; [|reflexivity].
      exfalso. apply Hk. apply om_get_Some_In in E1, E2. apply in_map_iff. exists (k, x). split; [reflexivity|]. apply flat_in. exists y. split; assumption.
    - intros k Hk. apply elem_of_list_In, elem_of_remove_dups, elem_of_app. right. apply elem_of_list_In. exact Hk. }
  lia.
Qed.
