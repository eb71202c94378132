(** WorldCover.v -- C83 in the world with tokens. *)

From Verif Require Export MVCover WorldSmall.

Lemma locked_owed s : locked_mpdao s <= mp_owed s.
Proof.
  unfold locked_mpdao, mp_owed. etransitivity; [|apply N.le_add_r]. apply sum_by_le. intros vid _. etransitivity; [|apply N.le_add_l].
  unfold positions_amount. apply sum_by_le. intros j _. destruct (j_is_locked j); lia.
Qed.

Lemma c83_world w0 evs : wstart w0 -> Forall (calm Mp w0) evs -> N.of_nat (length evs) < 2 ^ 64 -> collision_free (heard w0 evs) ->
  let w := wrun w0 evs in
  get_total_voting_power (w_mv w) <= 60 * 10 ^ 18 * ft_balance_of (w_mp w) (self_id (w_mv w)) /\
  (Forall quiet_bounds (heard w0 evs) ->
   60 * get_total_voting_power (w_mv w) <= (max_unbond (w_mv w0) + 1) * 10 ^ 18 * ft_balance_of (w_mp w) (self_id (w_mv w))).
Proof.
  intros Hs Hc Hn Hcf w. pose proof (w_solvent Mp w0 evs Hs Hc) as HS. cbv zeta in HS. unfold funds in HS. fold w in HS. cbn [owed tok_of] in HS.
  pose proof Hs as (a & _ & _ & _ & _ & _ & _ & Ha & _). assert (Ew : w_mv w = run (w_mv w0) (heard w0 evs)) by apply heard_run.
  pose proof (heard_len evs w0) as Hl. assert (Hn2 : N.of_nat (length (heard w0 evs)) < 2 ^ 64) by (eapply N.le_lt_trans; [apply of_nat_le; exact Hl|exact Hn]).
  pose proof (locked_owed (w_mv w)) as HL. split; [|intros Hq].
  - etransitivity; [rewrite Ew; eapply c83_power; eassumption|]. rewrite <- Ew. apply N.mul_le_mono_l. lia.
  - etransitivity; [rewrite Ew; eapply c83_power_quiet; eassumption|]. rewrite <- Ew. apply N.mul_le_mono_l. lia.
Qed.
