(** MVClaims.v -- rewards: unclaimed totals, exact distribution, claims (C16, C17, C18, C19). *)

From Verif Require Export MVFrame MVIso MVPos.

(** ** One token's claims *)
Definition clm (m : omap_t string N) (a : string) : N := default 0 (om_get m a).

Record CI (m : omap_t string N) (t : N) : Prop := {
  ci_nd : NoDup m.*1;
  ci_pos : forall a n, om_get m a = Some n -> 0 < n;
  ci_sum : t = om_sum (fun _ n => n) m;
}.

Lemma CI_add m t a x :
  CI m t -> 0 < x ->
  CI (om_set m a (clm m a + x)) (t + x) /\
  forall b, clm (om_set m a (clm m a + x)) b = clm m b + if decide (a = b) then x else 0.
Proof.
  intros [Hn Hp Hs] Hx. split.
  - split.
    + apply om_set_NoDup. exact Hn.
    + intros b n. destruct (decide (a = b)) as [<-|Hne].
      * rewrite om_get_set_eq. injection 1 as <-. lia.
      * rewrite om_get_set_ne by assumption. apply Hp.
    + unfold clm. destruct (om_get m a) as [n|] eqn:E; cbn [from_option id].
      * pose proof (om_sum_set_old (fun (_ : string) (n : N) => n) m a n (n + x) E) as H. cbn beta in H. lia.
      * pose proof (om_sum_set_new (fun (_ : string) (n : N) => n) m a (0 + x) E) as H. cbn beta in H. lia.
  - intros b. unfold clm at 1. destruct (decide (a = b)) as [<-|Hne].
    + rewrite om_get_set_eq. reflexivity.
    + rewrite om_get_set_ne by assumption. fold (clm m b). lia.
Qed.

Lemma CI_rem m t a x :
  CI m t -> x <= clm m a ->
  let m' := if clm m a - x =? 0 then om_remove m a else om_set m a (clm m a - x) in
  x <= t /\ CI m' (t - x) /\
  forall b, clm m' b + (if decide (a = b) then x else 0) = clm m b.
Proof.
  intros [Hn Hp Hs] Hx. cbv zeta. unfold clm in *.
  destruct (om_get m a) as [n|] eqn:E; cbn [from_option id] in *.
  - pose proof (om_sum_ge (fun (_ : string) (n : N) => n) m a n E) as Hge. cbn beta in Hge.
    split; [lia|]. destruct (n - x =? 0) eqn:E0; nb.
    + assert (n = x) as -> by lia. split.
      * split; [apply om_remove_NoDup; exact Hn| |].
        -- intros b k. destruct (decide (a = b)) as [<-|Hne].
           ++ rewrite om_get_remove_eq by assumption. discriminate.
           ++ rewrite om_get_remove_ne by assumption. apply Hp.
        -- pose proof (om_sum_remove (fun (_ : string) (n : N) => n) m a x E) as H. cbn beta in H. lia.
      * intros b. destruct (decide (a = b)) as [<-|Hne].
        -- rewrite om_get_remove_eq, E by assumption. cbn. lia.
        -- rewrite om_get_remove_ne by assumption. lia.
    + split.
      * split; [apply om_set_NoDup; exact Hn| |].
        -- intros b k. destruct (decide (a = b)) as [<-|Hne].
           ++ rewrite om_get_set_eq. injection 1 as <-. lia.
           ++ rewrite om_get_set_ne by assumption. apply Hp.
        -- pose proof (om_sum_set_old (fun (_ : string) (n : N) => n) m a n (n - x) E) as H. cbn beta in H. lia.
      * intros b. destruct (decide (a = b)) as [<-|Hne].
        -- rewrite om_get_set_eq, E. cbn. lia.
        -- rewrite om_get_set_ne by assumption. lia.
  - assert (x = 0) as -> by lia. cbn. split; [lia|]. rewrite om_remove_None by exact E.
    split; [split; [assumption|assumption|lia]|]. intros b. destruct (decide (a = b)); lia.
Qed.

(** a distribution, item by item *)
Definition dist1 (u : N) (mt : omap_t string N * N) (p : string * N) : omap_t string N * N :=
  (om_set mt.1 p.1 (clm mt.1 p.1 + p.2 * u), mt.2 + p.2 * u).
Definition distN (u : N) (l : list (string * N)) (mt : omap_t string N * N) : omap_t string N * N :=
  fold_left (dist1 u) l mt.

Lemma CI_dist u l : forall m t,
  0 < u -> CI m t -> Forall (fun p => 0 < p.2) l ->
  CI (distN u l (m, t)).1 (distN u l (m, t)).2 /\
  (distN u l (m, t)).2 = t + u * sum_by snd l /\
  forall b, clm (distN u l (m, t)).1 b = clm m b + u * listed_for b l.
Proof.
  induction l as [|p l IH]; intros m t Hu HC HF.
  { unfold distN. cbn [fold_left fst snd]. split; [exact HC|]. split; [rewrite sum_by_nil; lia|].
    intros b. unfold listed_for. rewrite sum_by_nil. lia. }
  apply Forall_cons in HF as [Hp HF].
  destruct (CI_add m t p.1 (p.2 * u) HC ltac:(nia)) as [HC1 Hg].
  change (distN u (p :: l) (m, t)) with (distN u l (om_set m p.1 (clm m p.1 + p.2 * u), t + p.2 * u)).
  destruct (IH _ _ Hu HC1 HF) as (H1 & H2 & H3). split; [exact H1|]. split.
  - rewrite H2, sum_by_cons. cbn. lia.
  - intros b. rewrite H3, Hg. unfold listed_for. rewrite sum_by_cons. cbn.
    destruct (decide (p.1 = b)); lia.
Qed.

(** ** The distribution loop of the contract *)
Lemma dist_loop_mp l : forall s d s' d',
  foldM (fun sd item =>
           a ← mul128 item.2 1000000;
           s' ← add_claimable_mpdao sd.1 item.1 a;
           d' ← add128 sd.2 a;
           Ok (s', d')) l (s, d) = Ok (s', d') ->
  Forall (fun p => 0 < p.2) l /\ d' = d + mp_unit * sum_by snd l /\
  let r := distN mp_unit l (claim_mp s, uncl_mp s) in
  s' = s <| claim_mp := r.1 |> <| uncl_mp := r.2 |>.
Proof.
  induction l as [|p l IH]; intros s d s' d' H.
  - cbn in H. injection H as <- <-. split; [constructor|]. split; [rewrite sum_by_nil; lia|]. cbn. destruct s; reflexivity.
  - cbn [foldM] in H. apply bind_Ok in H as ([s1 d1] & H1 & H). cbn [fst snd] in H1.
    apply bind_Ok in H1 as (a & Ha & H1). apply mul128_Ok in Ha as [-> _].
    apply bind_Ok in H1 as (s2 & H2 & H1). apply add_claimable_mpdao_inv in H2 as (Hp & _ & _ & Es).
    apply bind_Ok in H1 as (d2 & H2 & H1). apply add128_Ok in H2 as [-> _]. injection H1 as <- <-.
    apply IH in H as (HF & -> & ->). split; [constructor; [lia|exact HF]|].
    split; [rewrite sum_by_cons; unfold mp_unit; lia|].
    change (distN mp_unit (p :: l) (claim_mp s, uncl_mp s))
      with (distN mp_unit l (om_set (claim_mp s) p.1 (clm (claim_mp s) p.1 + p.2 * mp_unit), uncl_mp s + p.2 * mp_unit)).
    rewrite Es. cbn zeta. destruct s; reflexivity.
Qed.

Lemma dist_loop_st l : forall s d s' d',
  foldM (fun sd item =>
           a ← mul128 item.2 E20;
           s' ← add_claimable_stnear sd.1 item.1 a;
           d' ← add128 sd.2 a;
           Ok (s', d')) l (s, d) = Ok (s', d') ->
  Forall (fun p => 0 < p.2) l /\ d' = d + st_unit * sum_by snd l /\
  let r := distN st_unit l (claim_st s, uncl_st s) in
  s' = s <| claim_st := r.1 |> <| uncl_st := r.2 |>.
Proof.
  induction l as [|p l IH]; intros s d s' d' H.
  - cbn in H. injection H as <- <-. split; [constructor|]. split; [rewrite sum_by_nil; lia|]. cbn. destruct s; reflexivity.
  - cbn [foldM] in H. apply bind_Ok in H as ([s1 d1] & H1 & H). cbn [fst snd] in H1.
    apply bind_Ok in H1 as (a & Ha & H1). apply mul128_Ok in Ha as [-> _].
    apply bind_Ok in H1 as (s2 & H2 & H1). apply add_claimable_stnear_inv in H2 as (Hp & _ & _ & Es).
    apply bind_Ok in H1 as (d2 & H2 & H1). apply add128_Ok in H2 as [-> _]. injection H1 as <- <-.
    apply IH in H as (HF & -> & ->). split; [constructor; [lia|exact HF]|].
    split; [rewrite sum_by_cons; change st_unit with E20; lia|].
    change (distN st_unit (p :: l) (claim_st s, uncl_st s))
      with (distN st_unit l (om_set (claim_st s) p.1 (clm (claim_st s) p.1 + p.2 * st_unit), uncl_st s + p.2 * st_unit)).
    rewrite Es. cbn zeta. destruct s; reflexivity.
Qed.

Lemma distribute_inv c s total l s' :
  distribute_for_claims c s total l = Ok s' ->
  Forall (fun p => 0 < p.2) l /\
  ((c_pred c = mpdao_addr s /\ total = mp_unit * sum_by snd l /\
    let r := distN mp_unit l (claim_mp s, uncl_mp s) in
    s' = s <| claim_mp := r.1 |> <| uncl_mp := r.2 |> <| accum_mp := accum_mp s + total |>) \/
   (c_pred c <> mpdao_addr s /\ c_pred c = stnear_addr s /\ total = st_unit * sum_by snd l /\
    let r := distN st_unit l (claim_st s, uncl_st s) in
    s' = s <| claim_st := r.1 |> <| uncl_st := r.2 |> <| accum_st := accum_st s + total |>)).
Proof.
  intros H. unfold distribute_for_claims in H.
  apply bind_Ok in H as ([s2 d] & H & H'). apply bind_Ok in H' as (? & Hd & H'). injection H' as <-.
  apply require_Ok in Hd. nb. subst d.
  case_bool_decide; [|case_bool_decide; [|discriminate]];
    apply bind_Ok in H as ([s1 d1] & HF & H); apply bind_Ok in H as (acc & Ha & H); injection H as <- ->;
    apply add128_Ok in Ha as [-> _].
  - apply dist_loop_mp in HF as (HF & Ed & Es). split; [exact HF|]. left. split; [assumption|].
    split; [lia|]. cbn zeta in *. rewrite Es. destruct s; reflexivity.
  - apply dist_loop_st in HF as (HF & Ed & Es). split; [exact HF|]. right. split; [assumption|]. split; [assumption|].
    split; [lia|]. cbn zeta in *. rewrite Es. destruct s; reflexivity.
Qed.

(** ** Messages *)
Lemma substring_0 a s n : String.substring 0 (S n) (String a s) = String a (String.substring 0 n s).
Proof. reflexivity. Qed.
Lemma substring_S a s n m : String.substring (S n) m (String a s) = String.substring n m s.
Proof. reflexivity. Qed.
Lemma substring_all s : String.substring 0 (String.length s) s = s.
Proof. induction s as [|a s IH]; [reflexivity|]. change (String.length (String a s)) with (S (String.length s)). rewrite substring_0, IH. reflexivity. Qed.

Lemma after_prefix_sub p : forall s,
  String.substring 0 (String.length p) s = p ->
  after_prefix p s = Some (String.substring (String.length p) (String.length s - String.length p) s).
Proof.
  induction p as [|a p IH]; intros s H.
  - change (String.length "") with 0%nat. rewrite Nat.sub_0_r, substring_all. reflexivity.
  - change (String.length (String a p)) with (S (String.length p)) in *.
    destruct s as [|b s]; [discriminate|]. rewrite substring_0 in H. injection H as -> H.
    cbn [after_prefix]. rewrite Ascii.eqb_refl, IH by exact H. rewrite substring_S.
    change (String.length (String a s)) with (S (String.length s)). reflexivity.
Qed.

Lemma after_prefix_Some p : forall s r,
  after_prefix p s = Some r ->
  String.substring 0 (String.length p) s = p /\ (String.length p <= String.length s)%nat.
Proof.
  induction p as [|a p IH]; intros s r H.
  - split; [destruct s; reflexivity|]. change (String.length "") with 0%nat. lia.
  - destruct s as [|b s]; [discriminate|]. cbn [after_prefix] in H.
    destruct (Ascii.eqb a b) eqn:E; [|discriminate]. apply Ascii.eqb_eq in E as <-.
    apply IH in H as [H1 H2]. change (String.length (String a p)) with (S (String.length p)).
    change (String.length (String a s)) with (S (String.length s)). rewrite substring_0, H1. split; [reflexivity|lia].
Qed.

Lemma for_claims_true msg :
  msg_is_for_claims msg = Ok true ->
  after_prefix "for-claims:" msg = Some (String.substring 11 (String.length msg - 11) msg).
Proof.
  unfold msg_is_for_claims. destruct (11 <=? String.length msg)%nat eqn:E; [|discriminate].
  intros H. apply bind_Ok in H as (? & _ & H). injection H as H. apply bool_decide_eq_true in H.
  exact (after_prefix_sub "for-claims:" msg H).
Qed.

Lemma for_claims_false msg : msg_is_for_claims msg = Ok false -> after_prefix "for-claims:" msg = None.
Proof.
  unfold msg_is_for_claims. intros H. destruct (after_prefix "for-claims:" msg) as [r|] eqn:Ea; [|reflexivity].
  apply after_prefix_Some in Ea as [E1 E2]. change (String.length "for-claims:") with 11%nat in *.
  apply Nat.leb_le in E2. rewrite E2 in H. apply bind_Ok in H as (? & _ & H). injection H as H.
  apply bool_decide_eq_false in H. exfalso. exact (H E1).
Qed.

(** ** Transfers, in full *)
Lemma ft_cases c s sender amount msg s' e :
  exec c s (FtOnTransfer sender amount msg) = Ok (s', e) ->
  e = [] /\ c_deposit c = 0 /\
  ((exists l, claims_list (c, FtOnTransfer sender amount msg) = Some l /\ Forall (fun p => 0 < p.2) l /\
     ((c_pred c = mpdao_addr s /\ amount = mp_unit * sum_by snd l /\
       let r := distN mp_unit l (claim_mp s, uncl_mp s) in
       s' = s <| claim_mp := r.1 |> <| uncl_mp := r.2 |> <| accum_mp := accum_mp s + amount |>) \/
      (c_pred c <> mpdao_addr s /\ c_pred c = stnear_addr s /\ amount = st_unit * sum_by snd l /\
       let r := distN st_unit l (claim_st s, uncl_st s) in
       s' = s <| claim_st := r.1 |> <| uncl_st := r.2 |> <| accum_st := accum_st s + amount |>))) \/
   (after_prefix "for-claims:" msg = None /\ c_pred c = mpdao_addr s /\ min_deposit s <= amount /\
    exists vid days v' t, bond_for c s sender msg vid days /\
      dep1 s (get_voter s vid) amount days v' /\ s' = upd s vid v' t)).
Proof.
  intros H. cbn [exec] in H. apply bind_Ok in H as ([s1 n] & H & H'). injection H' as <- <-.
  split; [reflexivity|].
  apply ft_shape in H as (_ & Hd & [(l & Hf & Hl & _ & H)|(vid & days & v' & Hf & Hp & Hm & Hb & Hdep & t & ->)]);
    (split; [exact Hd|]).
  - left. exists l. apply for_claims_true in Hf. apply distribute_inv in H as [HF H].
    split; [unfold claims_list; cbn [snd fst]; rewrite Hf; exact Hl|]. split; [exact HF|exact H].
  - right. apply for_claims_false in Hf. split; [exact Hf|]. split; [exact Hp|]. split; [exact Hm|].
    exists vid, days, v', t. auto.
Qed.

(** ** One call *)
Definition CIs (s : state) : Prop := CI (claim_mp s) (uncl_mp s) /\ CI (claim_st s) (uncl_st s).

Lemma st_claimed_no e a s x : no_st e -> st_claimed a s x e = 0 /\ st_sent e = 0.
Proof.
  intros H. split; apply sum_by_zero; intros [v n|t u w n] Hin; try reflexivity; exfalso; eapply H; exact Hin.
Qed.

Lemma given_none s x e :
  claims_list x = None ->
  (forall a, mp_given a s x e = 0) /\ (forall a, st_given a s x e = 0) /\
  mp_given_all s x e = 0 /\ st_given_all s x e = 0.
Proof.
  intros H. unfold mp_given, st_given, mp_given_all, st_given_all, listed_for. rewrite H. cbn [from_option id].
  assert (Z : forall (f : string * N -> N) u, u * sum_by f [] = 0) by (intros; rewrite sum_by_nil; lia).
  repeat split; intros; rewrite ?Z; repeat case_decide; reflexivity.
Qed.

Definition step_claims (s : state) (x : call) (s' : state) (e : list eff) : Prop :=
  CIs s' /\
  (forall a, get_claimable_mpdao s' a + mp_claimed a s x e = get_claimable_mpdao s a + mp_given a s x e) /\
  (forall a, get_claimable_stnear s' a + st_claimed a s x e
             = get_claimable_stnear s a + st_given a s x e + st_restored a s x e) /\
  uncl_mp s' + mp_claimed_all s x e = uncl_mp s + mp_given_all s x e /\
  uncl_st s' + st_claimed_all s x e = uncl_st s + st_given_all s x e + st_restored_all s x e /\
  accum_mp s' = accum_mp s + mp_given_all s x e /\
  accum_st s' = accum_st s + st_given_all s x e.

(** stNEAR leaves the claims of [src] *)
Lemma step_claim_st s x src rcv tok amount s' :
  CIs s -> claims_list x = None ->
  (forall a, mp_claimed a s x [PaySt tok src rcv amount] = 0) -> mp_claimed_all s x [PaySt tok src rcv amount] = 0 ->
  (forall a, st_restored a s x [PaySt tok src rcv amount] = 0) -> st_restored_all s x [PaySt tok src rcv amount] = 0 ->
  remove_claimable_stnear s src amount = Ok s' -> step_claims s x s' [PaySt tok src rcv amount].
Proof.
  intros [Hm Hs] Hl Z1 Z2 Z3 Z4 H. apply remove_claimable_stnear_inv in H as (Hle & _ & Es).
  destruct (given_none s x [PaySt tok src rcv amount] Hl) as (Y1 & Y2 & Y3 & Y4).
  destruct (CI_rem _ _ _ _ Hs Hle) as (Ht & HC & Hg). cbv zeta in HC, Hg.
  assert (E1 : claim_mp s' = claim_mp s) by (rewrite Es; reflexivity).
  assert (E2 : uncl_mp s' = uncl_mp s) by (rewrite Es; reflexivity).
  assert (E3 : accum_mp s' = accum_mp s) by (rewrite Es; reflexivity).
  assert (E4 : accum_st s' = accum_st s) by (rewrite Es; reflexivity).
  assert (E5 : uncl_st s' = uncl_st s - amount) by (rewrite Es; reflexivity).
  assert (E6 : forall b, get_claimable_stnear s' b + (if decide (src = b) then amount else 0) = get_claimable_stnear s b)
    by (intros b; rewrite Es; exact (Hg b)).
  assert (E7 : CI (claim_st s') (uncl_st s')) by (rewrite Es; exact HC).
  unfold step_claims, CIs, get_claimable_mpdao. rewrite E1, E2, E3, E4, Z2, Z4, Y3, Y4.
  split; [split; assumption|]. split; [intros a; rewrite Z1, Y1; lia|].
  split. { intros a. rewrite Z3, Y2. unfold st_claimed. rewrite sum_by_cons, sum_by_nil. specialize (E6 a). lia. }
  unfold st_claimed_all, st_sent. rewrite sum_by_cons, sum_by_nil. repeat split; lia.
Qed.

Lemma claims_step s x s' e :
  CIs s -> exec x.1 s x.2 = Ok (s', e) -> step_claims s x s' e.
Proof.
  destruct x as [c o]. cbn [fst snd]. intros HCI H. pose proof HCI as [Hm Hs].
  pose proof (exec_frame _ _ _ _ _ H) as [Fc _].
  assert (Nn : no_st []) by (intros t a b n []).
  destruct (is_claim_op o) eqn:Eo.
  - clear Fc. destruct o; try discriminate Eo.
    + (* ClaimAndLock *)
      cbn [exec] in H. apply noeff_Ok in H as [H ->].
      apply claim_and_lock_inv in H as (s1 & v & vp & l' & Hr & _ & _ & _ & _ & _ & _ & _ & Es).
      apply remove_claimable_mpdao_inv in Hr as (Hle & _ & Es1).
      destruct (CI_rem _ _ _ _ Hm Hle) as (Ht & HC & Hg). cbv zeta in HC, Hg.
      destruct (given_none s (c, ClaimAndLock amount days) [] eq_refl) as (Y1 & Y2 & Y3 & Y4).
      assert (E1 : claim_st s' = claim_st s) by (rewrite Es, Es1; reflexivity).
      assert (E2 : uncl_st s' = uncl_st s) by (rewrite Es, Es1; reflexivity).
      assert (E3 : accum_mp s' = accum_mp s) by (rewrite Es, Es1; reflexivity).
      assert (E4 : accum_st s' = accum_st s) by (rewrite Es, Es1; reflexivity).
      assert (E5 : uncl_mp s' = uncl_mp s - amount) by (rewrite Es, Es1; reflexivity).
      assert (E6 : forall b, get_claimable_mpdao s' b + (if decide (c_pred c = b) then amount else 0) = get_claimable_mpdao s b)
        by (intros b; rewrite Es, Es1; exact (Hg b)).
      assert (E7 : CI (claim_mp s') (uncl_mp s')) by (rewrite Es, Es1; exact HC).
      unfold step_claims, CIs, get_claimable_stnear. rewrite E1, E2, E3, E4, Y3, Y4.
      split; [split; assumption|]. split; [intros a; rewrite Y1; exact (eq_trans (E6 a) (eq_sym (N.add_0_r _)))|].
      split. { intros a. rewrite Y2. destruct (st_claimed_no [] a s (c, ClaimAndLock amount days) Nn) as [-> _]. cbn. lia. }
      unfold mp_claimed_all, st_claimed_all, st_restored_all, st_sent. cbn [snd]. rewrite sum_by_nil. repeat split; lia.
    + (* ClaimStnear *)
      cbn [exec] in H. unfold claim_stnear in H. rinv. eapply step_claim_st; try reflexivity; assumption.
    + (* DelegatedClaim *)
      cbn [exec] in H. unfold delegated_claim_stnear, verify_delegate in H. rinv.
      eapply step_claim_st; try reflexivity; assumption.
    + (* AfterSt *)
      destruct ok; [discriminate|].
      cbn [exec] in H. apply noeff_Ok in H as [H ->]. unfold after_transfer_stnear_callback in H. rinv.
      apply add_claimable_stnear_inv in H as (Hp & _ & _ & Es).
      destruct (CI_add _ _ source _ Hs Hp) as [HC Hg].
      destruct (given_none s (c, AfterSt source amount false) [] eq_refl) as (Y1 & Y2 & Y3 & Y4).
      assert (E1 : claim_mp s' = claim_mp s) by (rewrite Es; reflexivity).
      assert (E2 : uncl_mp s' = uncl_mp s) by (rewrite Es; reflexivity).
      assert (E3 : accum_mp s' = accum_mp s) by (rewrite Es; reflexivity).
      assert (E4 : accum_st s' = accum_st s) by (rewrite Es; reflexivity).
      assert (E5 : uncl_st s' = uncl_st s + amount) by (rewrite Es; reflexivity).
      assert (E6 : forall b, get_claimable_stnear s' b = get_claimable_stnear s b + if decide (source = b) then amount else 0)
        by (intros b; rewrite Es; exact (Hg b)).
      assert (E7 : CI (claim_st s') (uncl_st s')) by (rewrite Es; exact HC).
      unfold step_claims, CIs, get_claimable_mpdao. rewrite E1, E2, E3, E4, Y3, Y4.
      split; [split; assumption|]. split; [intros a; rewrite Y1; cbn; lia|].
      split. { intros a. rewrite Y2, E6. destruct (st_claimed_no [] a s (c, AfterSt source amount false) Nn) as [-> _]. cbn. lia. }
      unfold mp_claimed_all, st_claimed_all, st_restored_all, st_sent. cbn [snd]. rewrite sum_by_nil. repeat split; lia.
    + (* FtOnTransfer *)
      apply ft_cases in H as (-> & _ & [(l & Hl & HF & [(Hp & Ha & Es)|(Hnp & Hp & Ha & Es)])|(Hnp & _ & _ & vid & days & v' & t & _ & _ & Es)]).
      * destruct (CI_dist mp_unit l _ _ ltac:(reflexivity) Hm HF) as (HC & Ht & Hg).
        set (x := (c, FtOnTransfer sender amount msg)) in *.
        assert (Y1 : forall a, mp_given a s x [] = mp_unit * listed_for a l)
          by (intros a; unfold mp_given; rewrite decide_True by exact Hp; rewrite Hl; reflexivity).
        assert (Y2 : forall a, st_given a s x [] = 0) by (intros a; unfold st_given; rewrite decide_True by exact Hp; reflexivity).
        assert (Y3 : mp_given_all s x [] = mp_unit * sum_by snd l)
          by (unfold mp_given_all; rewrite decide_True by exact Hp; rewrite Hl; reflexivity).
        assert (Y4 : st_given_all s x [] = 0) by (unfold st_given_all; rewrite decide_True by exact Hp; reflexivity).
        assert (E1 : claim_st s' = claim_st s) by (rewrite Es; reflexivity).
        assert (E2 : uncl_st s' = uncl_st s) by (rewrite Es; reflexivity).
        assert (E3 : accum_mp s' = accum_mp s + amount) by (rewrite Es; reflexivity).
        assert (E4 : accum_st s' = accum_st s) by (rewrite Es; reflexivity).
        assert (E5 : uncl_mp s' = uncl_mp s + mp_unit * sum_by snd l) by (rewrite Es; exact Ht).
        assert (E6 : forall b, get_claimable_mpdao s' b = get_claimable_mpdao s b + mp_unit * listed_for b l)
          by (intros b; rewrite Es; exact (Hg b)).
        assert (E7 : CI (claim_mp s') (uncl_mp s')) by (rewrite Es; exact HC).
        unfold step_claims, CIs, get_claimable_stnear. rewrite E1, E2, E3, E4, Y3, Y4.
        split; [split; assumption|]. split; [intros a; rewrite Y1, E6; cbn; lia|].
        split. { intros a. rewrite Y2. destruct (st_claimed_no [] a s x Nn) as [-> _]. cbn. lia. }
        unfold x, mp_claimed_all, st_claimed_all, st_restored_all, st_sent. cbn [snd]. rewrite sum_by_nil. repeat split; lia.
      * destruct (CI_dist st_unit l _ _ ltac:(reflexivity) Hs HF) as (HC & Ht & Hg).
        set (x := (c, FtOnTransfer sender amount msg)) in *.
        assert (Y1 : forall a, mp_given a s x [] = 0) by (intros a; unfold mp_given; rewrite decide_False by exact Hnp; reflexivity).
        assert (Y2 : forall a, st_given a s x [] = st_unit * listed_for a l)
          by (intros a; unfold st_given; rewrite decide_False by exact Hnp; rewrite decide_True by exact Hp; rewrite Hl; reflexivity).
        assert (Y3 : mp_given_all s x [] = 0) by (unfold mp_given_all; rewrite decide_False by exact Hnp; reflexivity).
        assert (Y4 : st_given_all s x [] = st_unit * sum_by snd l)
          by (unfold st_given_all; rewrite decide_False by exact Hnp; rewrite decide_True by exact Hp; rewrite Hl; reflexivity).
        assert (E1 : claim_mp s' = claim_mp s) by (rewrite Es; reflexivity).
        assert (E2 : uncl_mp s' = uncl_mp s) by (rewrite Es; reflexivity).
        assert (E3 : accum_mp s' = accum_mp s) by (rewrite Es; reflexivity).
        assert (E4 : accum_st s' = accum_st s + amount) by (rewrite Es; reflexivity).
        assert (E5 : uncl_st s' = uncl_st s + st_unit * sum_by snd l) by (rewrite Es; exact Ht).
        assert (E6 : forall b, get_claimable_stnear s' b = get_claimable_stnear s b + st_unit * listed_for b l)
          by (intros b; rewrite Es; exact (Hg b)).
        assert (E7 : CI (claim_st s') (uncl_st s')) by (rewrite Es; exact HC).
        unfold step_claims, CIs, get_claimable_mpdao. rewrite E1, E2, E3, E4, Y3, Y4.
        split; [split; assumption|]. split; [intros a; rewrite Y1; cbn; lia|].
        split. { intros a. rewrite Y2, E6. destruct (st_claimed_no [] a s x Nn) as [-> _]. cbn. lia. }
        unfold x, mp_claimed_all, st_claimed_all, st_restored_all, st_sent. cbn [snd]. rewrite sum_by_nil. repeat split; lia.
      * set (x := (c, FtOnTransfer sender amount msg)) in *.
        assert (Hl : claims_list x = None) by (unfold claims_list; cbn [x snd]; rewrite Hnp; reflexivity).
        destruct (given_none s x [] Hl) as (Y1 & Y2 & Y3 & Y4).
        assert (Ef : claimf s' = claimf s) by (rewrite Es; reflexivity).
        unfold claimf in Ef. injection Ef as E1 E2 E3 E4 E5 E6.
        unfold step_claims, CIs, get_claimable_mpdao, get_claimable_stnear. rewrite E1, E2, E3, E4, E5, E6, Y3, Y4.
        split; [split; assumption|]. split; [intros a; rewrite Y1; cbn; lia|].
        split. { intros a. rewrite Y2. destruct (st_claimed_no [] a s x Nn) as [-> _]. cbn. lia. }
        unfold x, mp_claimed_all, st_claimed_all, st_restored_all, st_sent. cbn [snd]. rewrite sum_by_nil. repeat split; lia.
  - destruct (Fc eq_refl) as [Ef Hns]. unfold claimf in Ef. injection Ef as E1 E2 E3 E4 E5 E6.
    assert (Hl : claims_list (c, o) = None) by (destruct o; try reflexivity; discriminate Eo).
    destruct (given_none s (c, o) e Hl) as (Y1 & Y2 & Y3 & Y4).
    unfold step_claims, CIs, get_claimable_mpdao, get_claimable_stnear. rewrite E1, E2, E3, E4, E5, E6, Y3, Y4.
    assert (Z1 : forall a, mp_claimed a s (c, o) e = 0) by (intros a; destruct o; try reflexivity; discriminate Eo).
    assert (Z2 : forall a, st_restored a s (c, o) e = 0) by (intros a; destruct o; try reflexivity; destruct ok; [reflexivity|discriminate Eo]).
    assert (Z3 : mp_claimed_all s (c, o) e = 0) by (destruct o; try reflexivity; discriminate Eo).
    assert (Z4 : st_restored_all s (c, o) e = 0) by (destruct o; try reflexivity; destruct ok; [reflexivity|discriminate Eo]).
    rewrite Z3, Z4. split; [split; assumption|].
    split; [intros a; rewrite Z1, Y1; lia|].
    split; [intros a; rewrite Z2, Y2; destruct (st_claimed_no e a s (c, o) Hns) as [-> _]; lia|].
    unfold st_claimed_all. destruct (st_claimed_no e "" s (c, o) Hns) as [_ ->].
    repeat split; lia.
Qed.

(** ** Histories *)
Lemma CIs_init a s : mv_new a = Ok s -> CIs s.
Proof.
  unfold mv_new. intros H. rinv. split; cbn; (split; [constructor|discriminate|reflexivity]).
Qed.

Lemma CIs_run s tr : CIs s -> CIs (run s tr).
Proof.
  intros H. apply run_inv; [exact H|]. intros x t t' e _ HC He. apply (claims_step _ _ _ _ HC He).
Qed.

Lemma run_cons s x tr : run s (x :: tr) = run (step s x) tr.
Proof. reflexivity. Qed.

Lemma run_claims tr : forall s,
  CIs s ->
  (forall a, get_claimable_mpdao (run s tr) a + run_sum (mp_claimed a) s tr
             = get_claimable_mpdao s a + run_sum (mp_given a) s tr) /\
  (forall a, get_claimable_stnear (run s tr) a + run_sum (st_claimed a) s tr
             = get_claimable_stnear s a + run_sum (st_given a) s tr + run_sum (st_restored a) s tr) /\
  uncl_mp (run s tr) + run_sum mp_claimed_all s tr = uncl_mp s + run_sum mp_given_all s tr /\
  uncl_st (run s tr) + run_sum st_claimed_all s tr
    = uncl_st s + run_sum st_given_all s tr + run_sum st_restored_all s tr /\
  accum_mp (run s tr) = accum_mp s + run_sum mp_given_all s tr /\
  accum_st (run s tr) = accum_st s + run_sum st_given_all s tr.
Proof.
  induction tr as [|x tr IH]; intros s HC.
  { cbn. repeat split; intros; lia. }
  rewrite run_cons. unfold step. cbn [run_sum]. destruct (exec x.1 s x.2) as [[s' e]|] eqn:E; [|apply IH; exact HC].
  destruct (claims_step _ _ _ _ HC E) as (HC' & S1 & S2 & S3 & S4 & S5 & S6).
  destruct (IH s' HC') as (R1 & R2 & R3 & R4 & R5 & R6).
  split; [intros a; specialize (S1 a); specialize (R1 a); lia|].
  split; [intros a; specialize (S2 a); specialize (R2 a); lia|].
  cbn [run_sum]. repeat split; lia.
Qed.

(** ** Pages of a map *)
Lemma map_page_spec {V} (m : omap_t string V) from limit :
  NoDup m.*1 -> map_page m from limit = Ok (take limit (drop from m)).
Proof.
  intros Hn. unfold map_page.
  replace (Nat.min (from + limit) (length m) - from)%nat with (length (take limit (drop from m)))
    by (rewrite take_length, drop_length; lia).
  apply mapMr_seq. intros i [k v] Hi. apply lookup_take_Some in Hi as [Hi Hlt]. rewrite lookup_drop in Hi.
  rewrite list_lookup_fmap, Hi. cbn [fmap option_fmap option_map fst expect mbind res_bind].
  rewrite (om_get_lookup _ _ _ _ Hn Hi). reflexivity.
Qed.

Lemma map_page_all {V} (m : omap_t string V) : NoDup m.*1 -> map_page m 0 (length m) = Ok m.
Proof. intros H. rewrite map_page_spec by exact H. rewrite drop_0, take_ge by lia. reflexivity. Qed.

Lemma CI_list m t a n : CI m t -> In (a, n) m <-> clm m a = n /\ 0 < n.
Proof.
  intros [Hn Hp _]. unfold clm. split.
  - intros Hin. pose proof (om_In_get _ _ _ Hn Hin) as E. rewrite E. split; [reflexivity|]. eapply Hp; exact E.
  - intros [E Hlt]. destruct (om_get m a) as [k|] eqn:Eg; cbn [from_option id] in E; [|lia]. subst k.
    apply om_get_Some_In. exact Eg.
Qed.

Lemma CIs_match s : CIs s -> claims_match s.
Proof.
  intros [Hm Hs]. exists (claim_mp s), (claim_st s).
  unfold get_claims, get_stnear_claims. rewrite !map_page_all by (first [apply Hm|apply Hs]).
  split; [reflexivity|]. split; [reflexivity|]. split; [apply Hm|]. split; [apply Hs|].
  split; [intros a n; apply (CI_list _ _ _ _ Hm)|]. split; [intros a n; apply (CI_list _ _ _ _ Hs)|].
  split; [apply Hm|apply Hs].
Qed.

Lemma c16 a s0 tr : mv_new a = Ok s0 -> claims_match (run s0 tr).
Proof. intros H. apply CIs_match, CIs_run. eapply CIs_init; exact H. Qed.

Lemma init_zero a s0 : mv_new a = Ok s0 ->
  claim_mp s0 = [] /\ claim_st s0 = [] /\ uncl_mp s0 = 0 /\ uncl_st s0 = 0 /\ accum_mp s0 = 0 /\ accum_st s0 = 0 /\
  voters s0 = [] /\ user_data s0 = [] /\ evm_delegates s0 = [] /\ evm_pre s0 = ∅ /\ evm_sigs s0 = ∅.
Proof. unfold mv_new. intros H. rinv. repeat split. Qed.

Lemma c16_totals a s0 tr :
  mv_new a = Ok s0 ->
  let i := get_contract_info (run s0 tr) in
  ci_uncl_mp i + run_sum mp_claimed_all s0 tr = ci_accum_mp i /\
  ci_uncl_st i + run_sum st_claimed_all s0 tr = ci_accum_st i + run_sum st_restored_all s0 tr.
Proof.
  intros H. pose proof (CIs_init _ _ H) as HC. apply init_zero in H as (_ & _ & Z1 & Z2 & Z3 & Z4 & _).
  destruct (run_claims tr s0 HC) as (_ & _ & R3 & R4 & R5 & R6). cbn. lia.
Qed.

Lemma c18_run a s0 tr :
  mv_new a = Ok s0 -> forall acct,
  run_sum (mp_claimed acct) s0 tr + get_claimable_mpdao (run s0 tr) acct = run_sum (mp_given acct) s0 tr /\
  run_sum (st_claimed acct) s0 tr + get_claimable_stnear (run s0 tr) acct
    = run_sum (st_given acct) s0 tr + run_sum (st_restored acct) s0 tr.
Proof.
  intros H acct. pose proof (CIs_init _ _ H) as HC. apply init_zero in H as (Z1 & Z2 & _).
  destruct (run_claims tr s0 HC) as (R1 & R2 & _). specialize (R1 acct). specialize (R2 acct).
  unfold get_claimable_mpdao at 2 in R1. unfold get_claimable_stnear at 2 in R2. rewrite Z1 in R1. rewrite Z2 in R2.
  cbn in R1, R2. lia.
Qed.

(** ** C17 for every state *)
Lemma dist_clm u l : forall m t b, clm (distN u l (m, t)).1 b = clm m b + u * listed_for b l.
Proof.
  induction l as [|p l IH]; intros m t b.
  { unfold distN. cbn [fold_left fst]. unfold listed_for. rewrite sum_by_nil. lia. }
  change (distN u (p :: l) (m, t)) with (distN u l (om_set m p.1 (clm m p.1 + p.2 * u), t + p.2 * u)).
  rewrite IH. unfold listed_for. rewrite sum_by_cons. cbn. unfold clm at 1.
  destruct (decide (p.1 = b)) as [<-|Hne].
  - rewrite om_get_set_eq. cbn [from_option id]. lia.
  - rewrite om_get_set_ne by exact Hne. fold (clm m b). lia.
Qed.
Lemma dist_total u l : forall m t, (distN u l (m, t)).2 = t + u * sum_by snd l.
Proof.
  induction l as [|p l IH]; intros m t; [unfold distN; cbn [fold_left snd]; rewrite sum_by_nil; lia|].
  change (distN u (p :: l) (m, t)) with (distN u l (om_set m p.1 (clm m p.1 + p.2 * u), t + p.2 * u)).
  rewrite IH, sum_by_cons. lia.
Qed.

Lemma c17_exact c s sender amount msg s' e rest :
  after_prefix "for-claims:" msg = Some rest ->
  exec c s (FtOnTransfer sender amount msg) = Ok (s', e) ->
  exists l, c_json_claims c rest = Some l /\ Forall (fun p => 0 < p.2) l /\
    let i := get_contract_info s in let i' := get_contract_info s' in
    ((c_pred c = ci_mpdao i /\
      distributed mp_unit amount l (get_claimable_mpdao s) (get_claimable_mpdao s')
        (ci_uncl_mp i) (ci_uncl_mp i') (ci_accum_mp i) (ci_accum_mp i') /\
      s' = s <| claim_mp := claim_mp s' |> <| uncl_mp := uncl_mp s' |> <| accum_mp := accum_mp s' |>) \/
     (c_pred c = ci_stnear i /\
      distributed st_unit amount l (get_claimable_stnear s) (get_claimable_stnear s')
        (ci_uncl_st i) (ci_uncl_st i') (ci_accum_st i) (ci_accum_st i') /\
      s' = s <| claim_st := claim_st s' |> <| uncl_st := uncl_st s' |> <| accum_st := accum_st s' |>)).
Proof.
  intros Hr H. apply ft_cases in H as (_ & _ & [(l & Hl & HF & H)|(Hn & _)]); [|rewrite Hn in Hr; discriminate].
  unfold claims_list in Hl. cbn [snd fst] in Hl. rewrite Hr in Hl. exists l. split; [exact Hl|]. split; [exact HF|].
  cbn zeta in *. destruct H as [(Hp & Ha & Es)|(_ & Hp & Ha & Es)]; [left|right]; (split; [exact Hp|]); split.
  - split; [exact Ha|]. split.
    { intros b. rewrite Es. exact (dist_clm mp_unit l (claim_mp s) (uncl_mp s) b). }
    split; [|rewrite Es; reflexivity]. change (uncl_mp s' = uncl_mp s + amount).
    assert (X : uncl_mp s' = (distN mp_unit l (claim_mp s, uncl_mp s)).2) by (rewrite Es; reflexivity).
    rewrite X, dist_total, Ha. reflexivity.
  - rewrite Es. destruct s; reflexivity.
  - split; [exact Ha|]. split.
    { intros b. rewrite Es. exact (dist_clm st_unit l (claim_st s) (uncl_st s) b). }
    split; [|rewrite Es; reflexivity]. change (uncl_st s' = uncl_st s + amount).
    assert (X : uncl_st s' = (distN st_unit l (claim_st s, uncl_st s)).2) by (rewrite Es; reflexivity).
    rewrite X, dist_total, Ha. reflexivity.
  - rewrite Es. destruct s; reflexivity.
Qed.

(** ** Acceptance *)
Lemma add128_ok a b : a + b < U128_SIZE -> add128 a b = Ok (a + b).
Proof. intros H. unfold add128. destruct (N.ltb_spec (a + b) U128_SIZE); [reflexivity|lia]. Qed.
Lemma sub128_ok a b : b <= a -> sub128 a b = Ok (a - b).
Proof. intros H. unfold sub128. destruct (N.leb_spec b a); [reflexivity|lia]. Qed.
Lemma mul128_ok a b : a * b < U128_SIZE -> mul128 a b = Ok (a * b).
Proof. intros H. unfold mul128. destruct (N.ltb_spec (a * b) U128_SIZE); [reflexivity|lia]. Qed.

Lemma CI_le m t a : CI m t -> clm m a <= t.
Proof.
  intros [_ _ Hs]. unfold clm. destruct (om_get m a) as [n|] eqn:E; cbn [from_option id]; [|lia].
  pose proof (om_sum_ge (fun (_ : string) (n : N) => n) m a n E) as H. cbn beta in H. lia.
Qed.

Lemma add_claimable_fwd m t a x :
  CI m t -> t + x < U128_SIZE -> add_claimable m t a x = Ok (om_set m a (clm m a + x), t + x).
Proof.
  intros HC Ht. pose proof (CI_le _ _ a HC) as Hle. unfold add_claimable. fold (clm m a).
  rewrite !add128_ok by lia. reflexivity.
Qed.

Lemma add_mp_fwd s a x :
  CI (claim_mp s) (uncl_mp s) -> 0 < x -> uncl_mp s + x < U128_SIZE ->
  add_claimable_mpdao s a x
  = Ok (s <| claim_mp := om_set (claim_mp s) a (clm (claim_mp s) a + x) |> <| uncl_mp := uncl_mp s + x |>).
Proof.
  intros HC Hx Ht. unfold add_claimable_mpdao. destruct (N.ltb_spec 0 x); [|lia]. cbn [require mbind res_bind].
  rewrite add_claimable_fwd by assumption. reflexivity.
Qed.
Lemma add_st_fwd s a x :
  CI (claim_st s) (uncl_st s) -> 0 < x -> uncl_st s + x < U128_SIZE ->
  add_claimable_stnear s a x
  = Ok (s <| claim_st := om_set (claim_st s) a (clm (claim_st s) a + x) |> <| uncl_st := uncl_st s + x |>).
Proof.
  intros HC Hx Ht. unfold add_claimable_stnear. destruct (N.ltb_spec 0 x); [|lia]. cbn [require mbind res_bind].
  rewrite add_claimable_fwd by assumption. reflexivity.
Qed.

Lemma dist_fwd_mp l : forall s d,
  CI (claim_mp s) (uncl_mp s) -> Forall (fun p => 0 < p.2) l ->
  uncl_mp s + mp_unit * sum_by snd l < U128_SIZE -> d + mp_unit * sum_by snd l < U128_SIZE ->
  exists s', foldM (fun sd item =>
           a ← mul128 item.2 1000000;
           s' ← add_claimable_mpdao sd.1 item.1 a;
           d' ← add128 sd.2 a;
           Ok (s', d')) l (s, d) = Ok (s', d + mp_unit * sum_by snd l) /\ accum_mp s' = accum_mp s.
Proof.
  induction l as [|p l IH]; intros s d HC HF Hu Hd.
  { exists s. rewrite sum_by_nil. cbn [foldM]. split; [do 2 f_equal; lia|reflexivity]. }
  apply Forall_cons in HF as [Hp HF]. rewrite sum_by_cons in *. unfold mp_unit in *.
  change (10 ^ 6) with 1000000 in *.
  cbn [foldM fst snd]. rewrite mul128_ok by lia. cbn [mbind res_bind].
  rewrite add_mp_fwd by (try exact HC; lia). cbn [mbind res_bind].
  rewrite add128_ok by lia. cbn [mbind res_bind].
  destruct (CI_add _ _ p.1 (p.2 * 1000000) HC ltac:(lia)) as [HC1 _].
  set (s1 := s <| claim_mp := _ |> <| uncl_mp := _ |>).
  assert (X1 : claim_mp s1 = om_set (claim_mp s) p.1 (clm (claim_mp s) p.1 + p.2 * 1000000)) by reflexivity.
  assert (X2 : uncl_mp s1 = uncl_mp s + p.2 * 1000000) by reflexivity.
  assert (X3 : accum_mp s1 = accum_mp s) by reflexivity.
  destruct (IH s1 (d + p.2 * 1000000)) as (s' & Hf & Ha).
  - rewrite X1, X2. exact HC1.
  - exact HF.
  - rewrite X2. lia.
  - lia.
  - exists s'. split; [|rewrite Ha; exact X3]. etransitivity; [exact Hf|]. do 2 f_equal. lia.
Qed.

Lemma dist_fwd_st l : forall s d,
  CI (claim_st s) (uncl_st s) -> Forall (fun p => 0 < p.2) l ->
  uncl_st s + st_unit * sum_by snd l < U128_SIZE -> d + st_unit * sum_by snd l < U128_SIZE ->
  exists s', foldM (fun sd item =>
           a ← mul128 item.2 E20;
           s' ← add_claimable_stnear sd.1 item.1 a;
           d' ← add128 sd.2 a;
           Ok (s', d')) l (s, d) = Ok (s', d + st_unit * sum_by snd l) /\ accum_st s' = accum_st s.
Proof.
  induction l as [|p l IH]; intros s d HC HF Hu Hd.
  { exists s. rewrite sum_by_nil. cbn [foldM]. split; [do 2 f_equal; lia|reflexivity]. }
  apply Forall_cons in HF as [Hp HF]. rewrite sum_by_cons in *. change st_unit with E20 in *.
  assert (HE : 0 < E20) by reflexivity.
  cbn [foldM fst snd]. rewrite mul128_ok by lia. cbn [mbind res_bind].
  rewrite add_st_fwd by (try exact HC; nia). cbn [mbind res_bind].
  rewrite add128_ok by lia. cbn [mbind res_bind].
  destruct (CI_add _ _ p.1 (p.2 * E20) HC ltac:(nia)) as [HC1 _].
  set (s1 := s <| claim_st := _ |> <| uncl_st := _ |>).
  assert (X1 : claim_st s1 = om_set (claim_st s) p.1 (clm (claim_st s) p.1 + p.2 * E20)) by reflexivity.
  assert (X2 : uncl_st s1 = uncl_st s + p.2 * E20) by reflexivity.
  assert (X3 : accum_st s1 = accum_st s) by reflexivity.
  destruct (IH s1 (d + p.2 * E20)) as (s' & Hf & Ha).
  - rewrite X1, X2. exact HC1.
  - exact HF.
  - rewrite X2. lia.
  - lia.
  - exists s'. split; [|rewrite Ha; exact X3]. etransitivity; [exact Hf|]. do 2 f_equal. lia.
Qed.

Lemma c17_accepted c s sender amount msg rest l :
  CIs s -> after_prefix "for-claims:" msg = Some rest -> char_boundary 11 msg = true ->
  c_json_claims c rest = Some l -> Forall (fun p => 0 < p.2 < U64_SIZE) l -> c_deposit c = 0 ->
  ((c_pred c = mpdao_addr s /\ amount = mp_unit * sum_by snd l /\
    uncl_mp s + amount < U128_SIZE /\ accum_mp s + amount < U128_SIZE) \/
   (c_pred c <> mpdao_addr s /\ c_pred c = stnear_addr s /\ amount = st_unit * sum_by snd l /\
    uncl_st s + amount < U128_SIZE /\ accum_st s + amount < U128_SIZE)) ->
  exists s', exec c s (FtOnTransfer sender amount msg) = Ok (s', []).
Proof.
  intros [Hm Hs] Hr Hb Hl HF Hd H. cbn [exec]. unfold ft_on_transfer, non_payable. rewrite Hd. cbn [N.eqb require mbind res_bind].
  assert (Efc : msg_is_for_claims msg = Ok true).
  { pose proof (after_prefix_Some _ _ _ Hr) as [H1 H2]. unfold msg_is_for_claims.
    change (String.length "for-claims:") with 11%nat in *. apply Nat.leb_le in H2. rewrite H2, Hb. cbn [require mbind res_bind].
    f_equal. apply bool_decide_eq_true. exact H1. }
  pose proof (for_claims_true _ Efc) as Er. rewrite Hr in Er. injection Er as Er.
  rewrite Efc. cbn [mbind res_bind]. rewrite <- Er, Hl. cbn [expect mbind res_bind].
  assert (Hall : forallb (fun p : string * N => p.2 <? U64_SIZE) l = true).
  { apply forallb_forall. intros p Hp. rewrite Forall_forall in HF. apply elem_of_list_In in Hp. apply HF in Hp. apply N.ltb_lt. lia. }
  rewrite Hall. cbn [require mbind res_bind].
  assert (HF' : Forall (fun p : string * N => 0 < p.2) l) by (eapply Forall_impl; [exact HF|]; cbn; intros; lia).
  assert (Hd2 : exists s', distribute_for_claims c s amount l = Ok s').
  { unfold distribute_for_claims. destruct H as [(Hp & Ha & Hu & Hac)|(Hnp & Hp & Ha & Hu & Hac)].
    - rewrite bool_decide_true by exact Hp.
      destruct (dist_fwd_mp l s 0 Hm HF' ltac:(lia) ltac:(lia)) as (s1 & -> & Eac). cbn [mbind res_bind].
      rewrite add128_ok by lia. cbn [mbind res_bind]. rewrite Ha.
      destruct (N.eqb_spec (0 + mp_unit * sum_by snd l) (mp_unit * sum_by snd l)); [|lia].
      cbn [require mbind res_bind]. eexists. reflexivity.
    - rewrite bool_decide_false by exact Hnp. rewrite bool_decide_true by exact Hp.
      destruct (dist_fwd_st l s 0 Hs HF' ltac:(lia) ltac:(lia)) as (s1 & -> & Eac). cbn [mbind res_bind].
      rewrite add128_ok by lia. cbn [mbind res_bind]. rewrite Ha.
      destruct (N.eqb_spec (0 + st_unit * sum_by snd l) (st_unit * sum_by snd l)); [|lia].
      cbn [require mbind res_bind]. eexists. reflexivity. }
  destruct Hd2 as [s' ->]. cbn [mbind res_bind]. exists s'. reflexivity.
Qed.

Lemma remove_claimable_fwd m t a x :
  CI m t -> x <= clm m a ->
  remove_claimable m t a x
  = Ok (if clm m a - x =? 0 then om_remove m a else om_set m a (clm m a - x), t - x).
Proof.
  intros HC Hx. pose proof (CI_le _ _ a HC) as Hle. unfold remove_claimable. fold (clm m a).
  destruct (N.leb_spec x (clm m a)); [|lia]. cbn [require mbind res_bind].
  rewrite !sub128_ok by lia. reflexivity.
Qed.

Lemma c18_claim_stnear c s amount :
  CIs s -> c_deposit c = 0 -> amount <= get_claimable_stnear s (c_pred c) ->
  exists s', exec c s (ClaimStnear amount)
             = Ok (s', [PaySt (ci_stnear (get_contract_info s)) (c_pred c) (c_pred c) amount]).
Proof.
  intros [_ Hs] Hd Hle. cbn [exec]. unfold claim_stnear, non_payable. rewrite Hd. cbn [N.eqb require mbind res_bind].
  unfold remove_claimable_stnear. rewrite (remove_claimable_fwd _ _ _ _ Hs Hle). cbn [mbind res_bind].
  eexists. reflexivity.
Qed.

(** C19 for registered voters *)
Lemma get_all_lps s vid now :
  get_all_locking_positions now s vid = imap (fun i p => lp_to_json now i p) (v_lps (get_voter s vid)).
Proof. reflexivity. Qed.

Lemma imap_In {A B} (f : nat -> A -> B) l y : In y (imap f l) <-> exists i x, l !! i = Some x /\ y = f i x.
Proof.
  rewrite <- elem_of_list_In, elem_of_list_lookup. split.
  - intros [i H]. rewrite list_lookup_imap in H. destruct (l !! i) as [x|] eqn:E; [|discriminate].
    cbn in H. injection H as <-. eauto.
  - intros (i & x & E & ->). exists i. rewrite list_lookup_imap, E. reflexivity.
Qed.

Lemma c19_voter c s amount days :
  CIs s -> c_pred c ∈ voter_ids s -> c_deposit c = 0 ->
  amount <= get_claimable_mpdao s (c_pred c) -> lockable s (c_pred c) amount days ->
  exists s', exec c s (ClaimAndLock amount days) = Ok (s', []).
Proof.
  intros [Hm _] Hv Hd Hle (L1 & L2 & L3 & L4 & L5 & L6 & L7 & L8 & L9 & L10).
  cbn [get_contract_info ci_min_deposit ci_min_unbond ci_max_unbond ci_max_lps] in *.
  unfold get_total_voting_power, get_available_voting_power, positions_amount in *.
  rewrite get_all_lps, imap_length in *.
  rewrite (sum_by_imap _ j_amount lp_amount) in L7 by reflexivity.
  rewrite (sum_by_imap _ j_vp lp_vp) in L8 by reflexivity.
  change (2 ^ 128) with U128_SIZE in *.
  set (vid := c_pred c) in *. set (vp := amount * 10 ^ 18 * days / 60) in *.
  assert (Hvp : calculate_voting_power amount days = Ok vp).
  { apply calc_Ok. split; [reflexivity|]. split; [exact L6|]. split; [exact L3|]. lia. }
  cbn [exec]. unfold claim_and_lock, non_payable, assert_min_deposit_amount. rewrite Hd. cbn [N.eqb require mbind res_bind].
  destruct (N.leb_spec (min_deposit s) amount); [|lia]. cbn [require mbind res_bind]. cbn zeta.
  unfold remove_claimable_mpdao. fold vid. rewrite (remove_claimable_fwd _ _ _ _ Hm Hle). cbn [mbind res_bind].
  set (s1 := s <| claim_mp := _ |> <| uncl_mp := _ |>).
  unfold get_voter_or_panic. change (voters s1) with (voters s).
  destruct (om_get (voters s) vid) as [v|] eqn:Ev.
  2:{ apply om_get_None in Ev. contradiction. }
  assert (Egv : get_voter s vid = v) by (unfold get_voter; rewrite Ev; reflexivity). rewrite Egv in *.
  cbn [expect mbind res_bind]. unfold deposit_locking_position.
  change (min_unbond s1) with (min_unbond s). change (max_unbond s1) with (max_unbond s).
  destruct (N.leb_spec (min_unbond s) days); [|lia]. destruct (N.leb_spec days (max_unbond s)); [|lia].
  cbn [andb require mbind res_bind].
  destruct (find_locked_position v days) as [i|] eqn:Ef.
  - pose proof (find_locked_Some _ _ _ Ef) as (p & Hp & _ & _).
    unfold increase_locking_position, get_position. rewrite Hvp, Hp. cbn [expect mbind res_bind].
    pose proof (sum_by_ge_elem lp_amount _ _ (proj1 (elem_of_list_In _ _) (elem_of_list_lookup_2 _ _ _ Hp))) as Ga.
    pose proof (sum_by_ge_elem lp_vp _ _ (proj1 (elem_of_list_In _ _) (elem_of_list_lookup_2 _ _ _ Hp))) as Gv.
    change (total_vp s1) with (total_vp s).
    rewrite (add128_ok (lp_amount p)), (add128_ok (lp_vp p)), (add128_ok (v_avail v)), (add128_ok (total_vp s)) by lia.
    cbn [mbind res_bind]. eexists. reflexivity.
  - assert (Hroom : N.of_nat (length (v_lps v)) < max_lps s).
    { destruct L4 as [L4|(j & Hj & Hlk & Hdj)]; [exact L4|]. exfalso.
      apply imap_In in Hj as (i & p & Hp & ->). cbn in Hlk, Hdj.
      unfold find_locked_position in Ef. rewrite find_locked_from_None in Ef.
      eapply (Ef p); [apply elem_of_list_In; eapply elem_of_list_lookup_2; exact Hp|exact Hdj|].
      unfold is_locked in Hlk. destruct (lp_unl p); [discriminate|reflexivity]. }
    unfold internal_create_locking_position, assert_lps_room. rewrite N.mod_small by lia.
    change (max_lps s1) with (max_lps s).
    destruct (N.ltb_spec (N.of_nat (length (v_lps v))) (max_lps s)); [|lia]. cbn [require mbind res_bind].
    rewrite Ef. cbn [require mbind res_bind]. rewrite Hvp. cbn [mbind res_bind].
    change (total_vp s1) with (total_vp s). rewrite !add128_ok by lia. cbn [mbind res_bind]. eexists. reflexivity.
Qed.
