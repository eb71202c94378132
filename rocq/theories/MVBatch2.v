(** MVBatch2.v -- C78: migrated positions and distributed rewards. *)

From Verif Require Export MVBatch MVAccept2.

(** ** Migration *)
Lemma deposit_saves s n d w v s' v' : deposit_locking_position s n d w v = Ok (s', v') -> get_voter s' w = v' /\ prev_gov s' = prev_gov s.
Proof.
  intros H. unfold deposit_locking_position in H. apply bind_Ok in H as (? & _ & H). apply bind_Ok in H as ([s1 v1] & H1 & H).
  injection H as <- <-. split.
  - unfold get_voter, save_voter. cbn [voters set]. rewrite om_get_set_eq. reflexivity.
  - change (prev_gov (save_voter s1 w v1)) with (prev_gov s1). destruct (find_locked_position v d) as [i|].
    + unfold increase_locking_position in H1. do 6 (apply bind_Ok in H1 as (? & _ & H1)). injection H1 as <- _. reflexivity.
    + unfold internal_create_locking_position in H1. do 5 (apply bind_Ok in H1 as (? & _ & H1)). injection H1 as <- _. reflexivity.
Qed.
Definition mig (w : string) (sv : state * voter) (lp : N * N) : res (state * voter) := deposit_locking_position sv.1 (lp.1 / E18) lp.2 w sv.2.
Lemma mig_exec c s w l data : exec c s (MigrationCreateLps w l data) =
  noeff (_ ← non_payable c; _ ← require (bool_decide (c_pred c = prev_gov s)) "Only the old gov contract can call this function.";
    '(s1, _) ← foldM (mig w) l (s, get_voter s w);
    match data with
    | None => Ok s1
    | Some d => match om_get (user_data s1) (c_pred c) with Some _ => Ok s1 | None => Ok (s1 <| user_data := om_set (user_data s1) (c_pred c) d |>) end
    end).
Proof. reflexivity. Qed.
Lemma mig_one c s w lp s' e : exec c s (MigrationCreateLps w [lp] None) = Ok (s', e) <->
  c_deposit c = 0 /\ c_pred c = prev_gov s /\ e = [] /\ exists v', mig w (s, get_voter s w) lp = Ok (s', v').
Proof.
  rewrite mig_exec, noeff_inv. split.
  - intros [H ->]. apply bind_Ok in H as (? & Hd & H). apply np_Ok in Hd. apply bind_Ok in H as (? & Hp & H). apply require_Ok, bool_decide_eq_true in Hp.
    apply bind_Ok in H as ([s1 v1] & H1 & H). cbn [foldM] in H1. apply bind_Ok in H1 as ([s2 v2] & H1 & H2). injection H2 as -> ->. injection H as ->. eauto 10.
  - intros (Hd & Hp & -> & v' & H). split; [|reflexivity]. rewrite np_go by exact Hd. rewrite bool_decide_true by exact Hp.
    change (require true _) with (Ok tt). rewrite go. cbn [foldM]. rewrite H. reflexivity.
Qed.
Lemma mig_chain c w l : c_deposit c = 0 -> forall s, c_pred c = prev_gov s -> forall s' e,
  all_accepted s (map (one_migrate c w) l) s' e <-> e = [] /\ foldM (mig w) l (s, get_voter s w) = Ok (s', get_voter s' w).
Proof.
  intros Hd. induction l as [|lp l IH]; intros s Hp s' e; cbn [map foldM].
  - rewrite aa_nil_inv. split; [intros [-> ->]; auto|]. intros (-> & H). injection H as <-. auto.
  - rewrite aa_cons_inv. cbn [one_migrate fst snd]. split.
    + intros (s1 & e1 & f & H1 & H2 & ->). apply mig_one in H1 as (_ & _ & -> & v1 & H1). destruct (deposit_saves _ _ _ _ _ _ _ H1) as [E1 E2].
      cbn [fst] in E2. apply IH in H2 as [-> H2]; [|congruence]. split; [reflexivity|]. rewrite H1. rewrite E1 in H2. exact H2.
    + intros (-> & H). apply bind_Ok in H as ([s1 v1] & H1 & H2). destruct (deposit_saves _ _ _ _ _ _ _ H1) as [E1 E2].
      cbn [fst] in E2. exists s1, [], []. split; [apply mig_one; eauto|]. split; [|reflexivity]. apply IH; [congruence|]. split; [reflexivity|]. rewrite E1. exact H2.
Qed.
Lemma mig_voter w l : forall s v s' v', get_voter s w = v -> foldM (mig w) l (s, v) = Ok (s', v') -> v' = get_voter s' w /\ prev_gov s' = prev_gov s.
Proof.
  induction l as [|lp l IH]; intros s v s' v' Hv H; cbn [foldM] in H.
  - injection H as <- <-. auto.
  - apply bind_Ok in H as ([s1 v1] & H1 & H2). destruct (deposit_saves _ _ _ _ _ _ _ H1) as [E1 E2]. apply IH in H2 as [-> E3]; [|exact E1].
    split; [reflexivity|]. cbn [fst] in *. congruence.
Qed.
Lemma c78_migrate c s w l data s' e :
  exec c s (MigrationCreateLps w l data) = Ok (s', e) <->
  all_accepted s (map (one_migrate c w) l ++ [(c, MigrationCreateLps w [] data)]) s' e.
Proof.
  rewrite aa_app. set (fin := fun s1 : state => match data with
    | None => Ok s1
    | Some d => match om_get (user_data s1) (c_pred c) with Some _ => Ok s1 | None => Ok (s1 <| user_data := om_set (user_data s1) (c_pred c) d |>) end
    end).
  assert (E0 : forall s s' e, exec c s (MigrationCreateLps w [] data) = Ok (s', e) <-> c_deposit c = 0 /\ c_pred c = prev_gov s /\ e = [] /\ fin s = Ok s').
  { intros s2 s3 f. rewrite mig_exec, noeff_inv. cbn [foldM]. split.
    - intros [H ->]. apply bind_Ok in H as (? & Hd & H). apply np_Ok in Hd. apply bind_Ok in H as (? & Hp & H). apply require_Ok, bool_decide_eq_true in Hp.
      rewrite go in H. auto.
    - intros (Hd & Hp & -> & H). split; [|reflexivity]. rewrite np_go by exact Hd. rewrite bool_decide_true by exact Hp.
      change (require true _) with (Ok tt). rewrite !go. exact H. }
  split.
  - rewrite mig_exec, noeff_inv. intros [H ->]. apply bind_Ok in H as (? & Hd & H). apply np_Ok in Hd. apply bind_Ok in H as (? & Hp & H). apply require_Ok, bool_decide_eq_true in Hp.
    apply bind_Ok in H as ([s1 v1] & H1 & H). destruct (mig_voter w l s _ s1 v1 eq_refl H1) as [-> E2].
    exists s1, [], []. split; [apply mig_chain; auto|]. split; [|reflexivity]. apply aa_cons_inv. exists s', [], []. cbn [fst snd].
    split; [apply E0; split; [exact Hd|]; split; [congruence|]; split; [reflexivity|exact H]|]. split; [constructor|reflexivity].
  - intros (s1 & e1 & f & H1 & H2 & ->). apply aa_cons_inv in H2 as (s2 & e2 & f2 & H2 & H3 & ->). apply aa_nil_inv in H3 as [-> ->]. cbn [fst snd] in H2.
    apply E0 in H2 as (Hd & Hp & -> & H2).
    assert (Hp0 : c_pred c = prev_gov s).
    { destruct l as [|lp l]; cbn [map] in H1; [apply aa_nil_inv in H1 as [-> _]; exact Hp|]. apply aa_cons_inv in H1 as (s3 & e3 & f3 & H1 & _).
      apply mig_one in H1 as (_ & H1 & _). exact H1. }
    apply mig_chain in H1 as [-> H1]; [|exact Hd|exact Hp0]. rewrite mig_exec, noeff_inv. split; [|reflexivity].
    rewrite np_go by exact Hd. rewrite bool_decide_true by exact Hp0. change (require true _) with (Ok tt). rewrite go, H1, go. exact H2.
Qed.

(** ** Rewards *)
Section Rewards.
Context (unit : N) (add : state -> string -> N -> res state) (acc : state -> N) (put : state -> N -> state).
Context (Hacc : forall s n, acc (put s n) = n) (Hpp : forall s n m, put (put s n) m = put s m) (Hpa : forall s, put s (acc s) = s).
Context (Hadd : forall s w n x, add (put s x) w n = (s' ← add s w n; Ok (put s' x))).
Context (Hkeep : forall s w n s', add s w n = Ok s' -> acc s' = acc s).
Definition rew (sd : state * N) (item : string * N) : res (state * N) :=
  a ← mul128 item.2 unit; s' ← add sd.1 item.1 a; d' ← add128 sd.2 a; Ok (s', d').
Definition rew1 (s : state) (item : string * N) : res state :=
  a ← mul128 item.2 unit; s' ← add s item.1 a; x ← add128 (acc s') a; Ok (put s' x).

Lemma rew_sum l : forall s d s' d', foldM rew l (s, d) = Ok (s', d') -> d' = d + unit * sum_by snd l /\ acc s' = acc s.
Proof.
  clear Hacc Hpp Hpa Hadd.
  induction l as [|p l IH]; intros s d s' d' H; cbn [foldM] in H.
  - injection H as <- <-. rewrite sum_by_nil, N.mul_0_r, N.add_0_r. auto.
  - apply bind_Ok in H as ([s1 d1] & H1 & H). apply bind_Ok in H1 as (x & Ha & H1). apply bind_Ok in H1 as (s2 & H2 & H1).
    apply bind_Ok in H1 as (d2 & Hd & H1). injection H1 as <- <-. cbn [fst snd] in *. apply Hkeep in H2.
    apply mul128_Ok in Ha as [-> Ha]. apply add128_Ok in Hd as [-> Hd]. apply IH in H as (-> & E). rewrite sum_by_cons. split; [lia|congruence].
Qed.
Lemma rew_chain n l : forall s d s' d', foldM rew l (s, d) = Ok (s', d') -> n + d' < U128_SIZE ->
  foldM rew1 l (put s (n + d)) = Ok (put s' (n + d')).
Proof.
  clear Hpa.
  induction l as [|p l IH]; intros s d s' d' H Hn; cbn [foldM] in H.
  - injection H as <- <-. reflexivity.
  - apply bind_Ok in H as ([s1 d1] & H1 & H). apply bind_Ok in H1 as (x & Ha & H1). apply bind_Ok in H1 as (s2 & H2 & H1).
    apply bind_Ok in H1 as (d2 & Hd & H1). injection H1 as <- <-. cbn [fst snd] in *.
    apply add128_Ok in Hd as [-> Hd]. destruct (rew_sum _ _ _ _ _ H) as [Ed _]. cbn [foldM]. unfold rew1 at 1. rewrite Ha, go, Hadd, H2, !go, Hacc.
    assert (add128 (n + d) x = Ok (n + d + x)) as -> by (apply add128_Ok; split; [reflexivity|lia]). rewrite !go, Hpp, <- N.add_assoc.
    apply IH; assumption.
Qed.
Lemma rew_back n l : forall s d t, n + d < U128_SIZE -> foldM rew1 l (put s (n + d)) = Ok t ->
  exists s' d', foldM rew l (s, d) = Ok (s', d') /\ n + d' < U128_SIZE /\ t = put s' (n + d').
Proof.
  clear Hpa.
  induction l as [|p l IH]; intros s d t Hn H; cbn [foldM] in H.
  - injection H as <-. exists s, d. auto.
  - apply bind_Ok in H as (t1 & H1 & H). unfold rew1 in H1. apply bind_Ok in H1 as (x & Ha & H1). rewrite Hadd in H1.
    apply bind_Ok in H1 as (t2 & H2 & H1). apply bind_Ok in H2 as (s2 & H2 & H3). injection H3 as <-. rewrite Hacc in H1.
    apply bind_Ok in H1 as (y & Hy & H1). injection H1 as <-. apply add128_Ok in Hy as [-> Hy]. rewrite Hpp, <- N.add_assoc in H.
    apply IH in H as (s' & d' & H & Hb & ->); [|lia]. exists s', d'. split; [|auto]. cbn [foldM]. unfold rew at 1. cbn [fst snd]. rewrite Ha, go, H2, go.
    assert (add128 d x = Ok (d + x)) as -> by (apply add128_Ok; split; [reflexivity|lia]). rewrite !go. exact H.
Qed.
Lemma rew_all s l t : l <> [] -> foldM rew1 l s = Ok t <->
  exists s1, foldM rew l (s, 0) = Ok (s1, unit * sum_by snd l) /\ acc s1 + unit * sum_by snd l < U128_SIZE /\ t = put s1 (acc s1 + unit * sum_by snd l).
Proof.
  intros Hl. split.
  - intros H. assert (Hs : acc s < U128_SIZE).
    { destruct l as [|p l]; [contradiction|]. cbn [foldM] in H. apply bind_Ok in H as (t1 & H & _). unfold rew1 in H.
      apply bind_Ok in H as (x & _ & H). apply bind_Ok in H as (s2 & H2 & H). apply bind_Ok in H as (y & Hy & _).
      apply add128_Ok in Hy as [_ Hy]. apply Hkeep in H2. rewrite H2 in Hy. lia. }
    rewrite <- (Hpa s) in H. replace (acc s) with (acc s + 0) in H by lia. apply rew_back in H as (s' & d' & H & Hb & ->); [|lia].
    destruct (rew_sum _ _ _ _ _ H) as [Ed Ea]. rewrite N.add_0_l in Ed. subst d'. exists s'. rewrite Ea. auto.
  - intros (s1 & H & Hb & ->). destruct (rew_sum _ _ _ _ _ H) as [_ Ea]. rewrite Ea in *. pose proof (rew_chain (acc s) l _ _ _ _ H Hb) as HH.
    rewrite N.add_0_r, Hpa in HH. exact HH.
Qed.
End Rewards.

Definition put_mp (s : state) (n : N) : state := s <| accum_mp := n |>.
Definition put_st (s : state) (n : N) : state := s <| accum_st := n |>.
Lemma add_mp_put s w n x : add_claimable_mpdao (put_mp s x) w n = (s' ← add_claimable_mpdao s w n; Ok (put_mp s' x)).
Proof.
  unfold add_claimable_mpdao. change (claim_mp (put_mp s x)) with (claim_mp s). change (uncl_mp (put_mp s x)) with (uncl_mp s).
  destruct (require _ _); [|reflexivity]. rewrite !go. destruct (add_claimable _ _ _ _) as [[m t]|]; reflexivity.
Qed.
Lemma add_st_put s w n x : add_claimable_stnear (put_st s x) w n = (s' ← add_claimable_stnear s w n; Ok (put_st s' x)).
Proof.
  unfold add_claimable_stnear. change (claim_st (put_st s x)) with (claim_st s). change (uncl_st (put_st s x)) with (uncl_st s).
  destruct (require _ _); [|reflexivity]. rewrite !go. destruct (add_claimable _ _ _ _) as [[m t]|]; reflexivity.
Qed.
Lemma add_mp_keep s w n s' : add_claimable_mpdao s w n = Ok s' -> accum_mp s' = accum_mp s /\ mpdao_addr s' = mpdao_addr s.
Proof.
  unfold add_claimable_mpdao. intros H. apply bind_Ok in H as (? & _ & H). apply bind_Ok in H as ([m t] & _ & H). injection H as <-. split; reflexivity.
Qed.
Lemma add_st_keep s w n s' : add_claimable_stnear s w n = Ok s' -> accum_st s' = accum_st s /\ mpdao_addr s' = mpdao_addr s /\ stnear_addr s' = stnear_addr s.
Proof.
  unfold add_claimable_stnear. intros H. apply bind_Ok in H as (? & _ & H). apply bind_Ok in H as ([m t] & _ & H). injection H as <-. split; [|split]; reflexivity.
Qed.
Definition batch_mp := rew 1000000 add_claimable_mpdao.
Definition single_mp := rew1 1000000 add_claimable_mpdao accum_mp put_mp.
Definition batch_st := rew E20 add_claimable_stnear.
Definition single_st := rew1 E20 add_claimable_stnear accum_st put_st.
Lemma all_mp s l t : l <> [] -> foldM single_mp l s = Ok t <->
  exists s1, foldM batch_mp l (s, 0) = Ok (s1, 1000000 * sum_by snd l) /\ accum_mp s1 + 1000000 * sum_by snd l < U128_SIZE /\
    t = put_mp s1 (accum_mp s1 + 1000000 * sum_by snd l).
Proof.
  apply rew_all; [reflexivity|reflexivity|intros []; reflexivity|exact add_mp_put|]. intros s2 w n s' H. apply add_mp_keep in H as [H _]. exact H.
Qed.
Lemma all_st s l t : l <> [] -> foldM single_st l s = Ok t <->
  exists s1, foldM batch_st l (s, 0) = Ok (s1, E20 * sum_by snd l) /\ accum_st s1 + E20 * sum_by snd l < U128_SIZE /\
    t = put_st s1 (accum_st s1 + E20 * sum_by snd l).
Proof.
  apply rew_all; [reflexivity|reflexivity|intros []; reflexivity|exact add_st_put|]. intros s2 w n s' H. apply add_st_keep in H as [H _]. exact H.
Qed.

Lemma dist_form c s total l : distribute_for_claims c s total l =
  ('(s2, distributed) ←
    (if bool_decide (c_pred c = mpdao_addr s) then
       '(s1, d) ← foldM batch_mp l (s, 0); x ← add128 (accum_mp s1) d; Ok (put_mp s1 x, d)
     else if bool_decide (c_pred c = stnear_addr s) then
       '(s1, d) ← foldM batch_st l (s, 0); x ← add128 (accum_st s1) d; Ok (put_st s1 x, d)
     else Panic "Unknown token address");
   _ ← require (distributed =? total) "total to distribute != total_amount sent"; Ok s2).
Proof. reflexivity. Qed.
Lemma batch_sum_mp l s s1 d : foldM batch_mp l (s, 0) = Ok (s1, d) -> d = 1000000 * sum_by snd l.
Proof.
  intros H. destruct (rew_sum 1000000 add_claimable_mpdao accum_mp ltac:(intros s2 w n s' Hs; apply add_mp_keep in Hs as [Hs _]; exact Hs) l _ _ _ _ H) as [E _].
  rewrite N.add_0_l in E. exact E.
Qed.
Lemma batch_sum_st l s s1 d : foldM batch_st l (s, 0) = Ok (s1, d) -> d = E20 * sum_by snd l.
Proof.
  intros H. destruct (rew_sum E20 add_claimable_stnear accum_st ltac:(intros s2 w n s' Hs; apply add_st_keep in Hs as [Hs _]; exact Hs) l _ _ _ _ H) as [E _].
  rewrite N.add_0_l in E. exact E.
Qed.
Lemma dist_mp c s total l t : l <> [] -> c_pred c = mpdao_addr s ->
  distribute_for_claims c s total l = Ok t <-> total = mp_unit * sum_by snd l /\ foldM single_mp l s = Ok t.
Proof.
  intros Hl Hp. rewrite (all_mp s l t Hl), dist_form. rewrite bool_decide_true by exact Hp. change mp_unit with 1000000. split.
  - intros H. apply bind_Ok in H as ([s2 d] & H1 & H). apply bind_Ok in H1 as ([s1 d1] & H1 & H2). apply bind_Ok in H2 as (x & Hx & H2).
    injection H2 as <- <-. apply bind_Ok in H as (? & Hr & H). apply require_Ok, N.eqb_eq in Hr. injection H as <-.
    pose proof (batch_sum_mp _ _ _ _ H1) as ->. apply add128_Ok in Hx as [-> Hx]. split; [symmetry; exact Hr|]. eauto.
  - intros (-> & s1 & H1 & Hb & ->). rewrite H1, go. assert (add128 (accum_mp s1) (1000000 * sum_by snd l) = Ok (accum_mp s1 + 1000000 * sum_by snd l)) as ->
      by (apply add128_Ok; split; [reflexivity|exact Hb]). rewrite !go, N.eqb_refl. reflexivity.
Qed.
Lemma dist_st c s total l t : l <> [] -> c_pred c <> mpdao_addr s -> c_pred c = stnear_addr s ->
  distribute_for_claims c s total l = Ok t <-> total = st_unit * sum_by snd l /\ foldM single_st l s = Ok t.
Proof.
  intros Hl Hq Hp. rewrite (all_st s l t Hl), dist_form. rewrite bool_decide_false by exact Hq. rewrite bool_decide_true by exact Hp. change st_unit with E20. split.
  - intros H. apply bind_Ok in H as ([s2 d] & H1 & H). apply bind_Ok in H1 as ([s1 d1] & H1 & H2). apply bind_Ok in H2 as (x & Hx & H2).
    injection H2 as <- <-. apply bind_Ok in H as (? & Hr & H). apply require_Ok, N.eqb_eq in Hr. injection H as <-.
    pose proof (batch_sum_st _ _ _ _ H1) as ->. apply add128_Ok in Hx as [-> Hx]. split; [symmetry; exact Hr|]. eauto.
  - intros (-> & s1 & H1 & Hb & ->). rewrite H1, go. assert (add128 (accum_st s1) (E20 * sum_by snd l) = Ok (accum_st s1 + E20 * sum_by snd l)) as ->
      by (apply add128_Ok; split; [reflexivity|exact Hb]). rewrite !go, N.eqb_refl. reflexivity.
Qed.

(** the transfer *)
Definition u64s (l : list (string * N)) : bool := forallb (fun p => p.2 <? U64_SIZE) l.
Lemma claim_exec c s sender amount msg rest l s' e : after_prefix "for-claims:" msg = Some rest -> c_json_claims c rest = Some l ->
  exec c s (FtOnTransfer sender amount msg) = Ok (s', e) <->
  c_deposit c = 0 /\ sliceable 11 msg /\ e = [] /\ u64s l = true /\ distribute_for_claims c s amount l = Ok s'.
Proof.
  intros Ha Hl. assert (Er : forall H : msg_is_for_claims msg = Ok true, String.substring 11 (String.length msg - 11) msg = rest).
  { intros H. apply for_claims_true in H. rewrite Ha in H. injection H as <-. reflexivity. }
  cbn [exec]. unfold ft_on_transfer. split.
  - intros H. apply bind_Ok in H as ([s1 n] & H & H'). injection H' as -> <-. apply bind_Ok in H as (? & Hd & H). apply np_Ok in Hd.
    apply bind_Ok in H as (fc & Hf & H). pose proof (fc_needs _ _ Hf) as Hs. pose proof (fc_spec _ Hs) as E. rewrite Ha, Hf in E. injection E as ->.
    rewrite (Er Hf), Hl in H. apply bind_Ok in H as (l' & E & H). injection E as <-. apply bind_Ok in H as (? & Hu & H). apply require_Ok in Hu.
    apply bind_Ok in H as (s2 & H & H2). injection H2 as -> _. auto.
  - intros (Hd & Hs & -> & Hu & H). pose proof (fc_spec _ Hs) as Hf. rewrite Ha in Hf. rewrite np_go by exact Hd. rewrite Hf, go, (Er Hf), Hl.
    change (expect (Some l) _) with (Ok l). rewrite go. unfold u64s in Hu. rewrite Hu. change (require true _) with (Ok tt). rewrite go, H. reflexivity.
Qed.
Definition single (c : ctx) (s : state) : state -> string * N -> res state :=
  if decide (c_pred c = mpdao_addr s) then single_mp else single_st.
Definition runit (c : ctx) (s : state) : N := if decide (c_pred c = mpdao_addr s) then mp_unit else st_unit.
Lemma dist_any c s total l t : l <> [] ->
  distribute_for_claims c s total l = Ok t <->
  (c_pred c = mpdao_addr s \/ c_pred c = stnear_addr s) /\ total = runit c s * sum_by snd l /\ foldM (single c s) l s = Ok t.
Proof.
  intros Hl. unfold runit, single. destruct (decide (c_pred c = mpdao_addr s)) as [Hp|Hp].
  - rewrite (dist_mp c s total l t Hl Hp). tauto.
  - destruct (decide (c_pred c = stnear_addr s)) as [Hq|Hq]; [rewrite (dist_st c s total l t Hl Hp Hq); tauto|].
    rewrite dist_form. rewrite !bool_decide_false by assumption. split; [discriminate|]. intros [[?|?] _]; contradiction.
Qed.
Lemma single_keep c s0 s p t : single c s0 s p = Ok t -> mpdao_addr t = mpdao_addr s /\ stnear_addr t = stnear_addr s.
Proof.
  unfold single. destruct (decide _); intros H; unfold single_mp, single_st, rew1 in H; apply bind_Ok in H as (x & _ & H); apply bind_Ok in H as (s2 & H2 & H);
    apply bind_Ok in H as (y & _ & H); injection H as <-.
  - unfold add_claimable_mpdao in H2. apply bind_Ok in H2 as (? & _ & H2). apply bind_Ok in H2 as ([m t2] & _ & H2). injection H2 as <-. split; reflexivity.
  - apply add_st_keep in H2. tauto.
Qed.
Lemma single_same c s1 s2 : mpdao_addr s1 = mpdao_addr s2 -> single c s1 = single c s2 /\ runit c s1 = runit c s2.
Proof. intros E. unfold single, runit. rewrite E. auto. Qed.

Lemma reward_one c s sender msg rest u p t e : after_prefix "for-claims:" msg = Some rest -> u = runit c s ->
  exec (with_claims c [p]) s (FtOnTransfer sender (u * p.2) msg) = Ok (t, e) <->
  c_deposit c = 0 /\ sliceable 11 msg /\ e = [] /\ u64s [p] = true /\ (c_pred c = mpdao_addr s \/ c_pred c = stnear_addr s) /\ single c s s p = Ok t.
Proof.
  intros Ha ->. rewrite (claim_exec (with_claims c [p]) s sender _ msg rest [p] t e Ha eq_refl). rewrite dist_any by discriminate.
  change (c_deposit (with_claims c [p])) with (c_deposit c). change (c_pred (with_claims c [p])) with (c_pred c).
  change (runit (with_claims c [p]) s) with (runit c s). change (single (with_claims c [p]) s) with (single c s).
  rewrite sum_by_cons, sum_by_nil, N.add_0_r. cbn [foldM].
  assert (E : (match single c s s p with Ok s' => Ok s' | Panic e => Panic e end) = single c s s p) by (destruct (single c s s p); reflexivity).
  rewrite E. tauto.
Qed.
Lemma reward_chain c sender msg rest l : after_prefix "for-claims:" msg = Some rest -> c_deposit c = 0 -> sliceable 11 msg ->
  forall s t e, (c_pred c = mpdao_addr s \/ c_pred c = stnear_addr s) ->
  all_accepted s (map (one_reward c sender msg (runit c s)) l) t e <-> e = [] /\ u64s l = true /\ foldM (single c s) l s = Ok t.
Proof.
  intros Ha Hd Hs. induction l as [|p l IH]; intros s t e Hp; cbn [map foldM].
  - rewrite aa_nil_inv. split; [intros [-> ->]; auto|]. intros (-> & _ & H). injection H as <-. auto.
  - rewrite aa_cons_inv. unfold one_reward at 1. cbn [fst snd]. split.
    + intros (s1 & e1 & f & H1 & H2 & ->). apply (reward_one c s sender msg rest) in H1 as (_ & _ & -> & Hu & _ & H1); [|exact Ha|reflexivity].
      destruct (single_keep _ _ _ _ _ H1) as [K1 K2]. destruct (single_same c s1 s K1) as [E1 E2].
      rewrite <- E2 in H2. apply IH in H2 as (-> & Hu2 & H2); [|rewrite K1, K2; exact Hp]. split; [reflexivity|].
      split; [unfold u64s in *; cbn [forallb] in *; rewrite andb_true_r in Hu; rewrite Hu; exact Hu2|]. rewrite H1, <- E1. exact H2.
    + intros (-> & Hu & H). apply bind_Ok in H as (s1 & H1 & H2). unfold u64s in Hu. cbn [forallb] in Hu. apply andb_prop in Hu as [Hu1 Hu2].
      destruct (single_keep _ _ _ _ _ H1) as [K1 K2]. destruct (single_same c s1 s K1) as [E1 E2].
      exists s1, [], []. split; [apply (reward_one c s sender msg rest); [exact Ha|reflexivity|]|].
      { split; [exact Hd|]. split; [exact Hs|]. split; [reflexivity|]. split; [unfold u64s; cbn [forallb]; rewrite Hu1; reflexivity|]. auto. }
      split; [|reflexivity]. rewrite <- E2. apply IH; [rewrite K1, K2; exact Hp|]. rewrite E1. auto.
Qed.
Lemma c78_reward c s sender amount msg rest l u s' e :
  after_prefix "for-claims:" msg = Some rest -> c_json_claims c rest = Some l -> l <> [] ->
  u = (if decide (c_pred c = mpdao_addr s) then mp_unit else st_unit) ->
  exec c s (FtOnTransfer sender amount msg) = Ok (s', e) <->
  amount = u * sum_by snd l /\ all_accepted s (map (one_reward c sender msg u) l) s' e.
Proof.
  intros Ha Hj Hl Hu. change (u = runit c s) in Hu. subst u. rewrite (claim_exec _ _ _ _ _ rest l _ _ Ha Hj), (dist_any c s amount l s' Hl). split.
  - intros (Hd & Hs & -> & Hu & Hp & Hn & H). split; [exact Hn|]. apply (reward_chain c sender msg rest l Ha Hd Hs s s' [] Hp). auto.
  - intros [Hn H].
    assert (Hb : c_deposit c = 0 /\ sliceable 11 msg /\ (c_pred c = mpdao_addr s \/ c_pred c = stnear_addr s)).
    { destruct l as [|p l]; [contradiction|]. cbn [map] in H. apply aa_cons_inv in H as (s1 & e1 & f & H & _). unfold one_reward in H. cbn [fst snd] in H.
      apply (reward_one c s sender msg rest) in H as (Hd & Hs & _ & _ & Hp & _); [auto|exact Ha|reflexivity]. }
    destruct Hb as (Hd & Hs & Hp). apply (reward_chain c sender msg rest l Ha Hd Hs s s' e Hp) in H as (-> & Hu & H). auto 10.
Qed.
