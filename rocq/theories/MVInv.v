(** MVInv.v -- invariant of all reachable states behind C01, C02, C04, C13:
    storage representation of every voter's votes, backing by locked power, total. *)

From Verif Require Export MVVotes MVSpec.

Definition locked_vp (l : list lpos) : N := sum_by (fun p => if is_locked p then lp_vp p else 0) l.

Global Arguments locked_vp : simpl never.

(** What is known of a voter: [None] -- power equals locked power (the voter never unlocked a
    position twice); [Some d] -- power is at least [d] below the locked power. *)
Definition bal (m : option N) (x y : N) : Prop :=
  match m with None => x = y | Some d => x + d <= y end.
Definition weak : string -> option N := fun _ => Some 0.
Definition strict : string -> option N := fun _ => None.

Definition pw (s : state) (v : voter) : N := v_avail v + used_raw (hp_vp s) (hp_vv s) (v_vp v).

Record Inv (eqm : string -> option N) (P : string -> string -> Prop) (s : state) : Prop := {
  i_nd : NoDup (voters s).*1;
  i_v : forall vid v, om_get (voters s) vid = Some v ->
    exists L, vrep (hp_vp s) (hp_vv s) vid (v_vp v) L /\ (forall a, a ∈ L.*1 -> P vid a) /\
      bal (eqm vid) (v_avail v + used L) (locked_vp (v_lps v));
  i_tot : total_vp s = om_sum (fun _ v => pw s v) (voters s);
  i_bnd : total_vp s < U128_SIZE;
  i_def : forall vid d, eqm vid = Some d -> 0 < d -> is_Some (om_get (voters s) vid);
}.

Definition injP (P : string -> string -> Prop) : Prop :=
  forall v1 a1 v2 a2, P v1 a1 -> P v2 a2 -> vkey v1 a1 = vkey v2 a2 -> v1 = v2 /\ a1 = a2.

(** ** List facts *)
Lemma locked_vp_app l1 l2 : locked_vp (l1 ++ l2) = locked_vp l1 + locked_vp l2.
Proof. apply sum_by_app. Qed.

Lemma locked_vp_insert l i p q :
  l !! i = Some p ->
  locked_vp (<[i := q]> l) + (if is_locked p then lp_vp p else 0)
  = locked_vp l + (if is_locked q then lp_vp q else 0).
Proof. intros H. exact (sum_by_insert (fun p => if is_locked p then lp_vp p else 0) l i p q H). Qed.

Lemma locked_vp_swap_remove l i p :
  l !! i = Some p ->
  locked_vp (swap_remove i l) + (if is_locked p then lp_vp p else 0) = locked_vp l.
Proof. intros H. exact (sum_by_swap_remove (fun p => if is_locked p then lp_vp p else 0) l i p H). Qed.

Lemma locked_unl p : lp_unl p = None -> is_locked p = true.
Proof. unfold is_locked. intros ->. reflexivity. Qed.
Lemma unl_locked p d : lp_unl p = Some d -> is_locked p = false.
Proof. unfold is_locked. intros ->. reflexivity. Qed.

Lemma dep_lps_locked m l amount days vp l' :
  dep_lps m l amount days vp l' -> locked_vp l' = locked_vp l + vp.
Proof.
  intros [(i & p & Hl & Hd & Hu & _ & _ & ->)|(_ & _ & ->)].
  - pose proof (locked_vp_insert l i p (mkLpos (lp_amount p + amount) days (lp_vp p + vp) None) Hl) as H.
    unfold is_locked in H.
    rewrite Hu in H. cbn [lp_unl lp_vp] in H.
    lia.
  - rewrite locked_vp_app. unfold locked_vp at 2. rewrite sum_by_cons, sum_by_nil. cbn. lia.
Qed.

Lemma clears_facts now v v' :
  clears now v v' ->
  v_avail v' = v_avail v /\ v_vp v' = v_vp v /\ locked_vp (v_lps v') = locked_vp (v_lps v).
Proof.
  induction 1 as [v|v v1 i p _ (IH1 & IH2 & IH3) Hl Hu Hb]; [auto|]. cbn. repeat split; auto.
  pose proof (locked_vp_swap_remove _ _ _ Hl) as H.
  unfold is_unlocked in Hu. unfold is_locked in H. destruct (lp_unl p); [lia|discriminate].
Qed.

Lemma bal_shift eqm a b a' b' : a + b' = a' + b -> bal eqm a b -> bal eqm a' b'.
Proof. unfold bal. destruct eqm as [d|]; lia. Qed.

(** ** General preservation *)
Section Inv.
Context (eqm : string -> option N) (P : string -> string -> Prop) (HP : injP P).

Lemma inv_ext s s' :
  Inv eqm P s -> voters s' = voters s -> total_vp s' = total_vp s ->
  hp_vp s' = hp_vp s -> hp_vv s' = hp_vv s -> Inv eqm P s'.
Proof.
  intros [H1 H2 H3 H4 H5] E1 E2 E3 E4. constructor; rewrite ?E1, ?E2; auto.
  - intros vid v Hv. rewrite E3, E4. auto.
  - rewrite H3. unfold pw. rewrite E3, E4. reflexivity.
Qed.

Lemma get_voter_Some s vid v : om_get (voters s) vid = Some v -> get_voter s vid = v.
Proof. unfold get_voter. intros ->. reflexivity. Qed.

Lemma pw_new s vid : pw s (new_voter vid) = 0.
Proof. reflexivity. Qed.

Lemma inv_get s vid :
  Inv eqm P s ->
  exists L, vrep (hp_vp s) (hp_vv s) vid (v_vp (get_voter s vid)) L /\
    (forall a, a ∈ L.*1 -> P vid a) /\
    bal (eqm vid) (v_avail (get_voter s vid) + used L) (locked_vp (v_lps (get_voter s vid))) /\
    pw s (get_voter s vid) = v_avail (get_voter s vid) + used L /\
    pw s (get_voter s vid) <= total_vp s.
Proof.
  intros [H1 H2 H3 H4 H5]. unfold get_voter. destruct (om_get (voters s) vid) as [v|] eqn:E; cbn.
  - destruct (H2 _ _ E) as (L & Hr & HL & Hb). exists L. split; [exact Hr|]. split; [exact HL|].
    split; [exact Hb|]. split; [unfold pw; rewrite (used_raw_rep _ _ _ _ _ Hr); reflexivity|].
    rewrite H3. apply (om_sum_ge (fun _ v => pw s v) _ _ _ E).
  - exists []. split; [apply vrep_nil|]. split; [intros a Ha; inversion Ha|].
    split. { unfold bal. specialize (H5 vid). destruct (eqm vid) as [d|]; [|reflexivity]. cbn.
      change (locked_vp []) with 0. change (used []) with 0.
      destruct (N.eq_dec d 0) as [->|Hd]; [lia|]. destruct (H5 d eq_refl ltac:(lia)). congruence. }
    assert (pw s (new_voter vid) = 0) as ->.
    { apply pw_new. }
    split; [reflexivity|lia].
Qed.

Lemma inv_update s s' vid v' L' :
  Inv eqm P s ->
  voters s' = om_set (voters s) vid v' ->
  (forall q, q <> vid -> cell_at (hp_vp s') q = cell_at (hp_vp s) q) ->
  (forall q, (forall a, P vid a -> q <> vkey vid a) -> cell_at (hp_vv s') q = cell_at (hp_vv s) q) ->
  vrep (hp_vp s') (hp_vv s') vid (v_vp v') L' ->
  (forall a, a ∈ L'.*1 -> P vid a) ->
  bal (eqm vid) (v_avail v' + used L') (locked_vp (v_lps v')) ->
  total_vp s' + pw s (get_voter s vid) = total_vp s + (v_avail v' + used L') ->
  total_vp s' < U128_SIZE ->
  Inv eqm P s'.
Proof.
  intros HI Ev F1 F2 Hr HL Hb Ht Hbnd. pose proof HI as [H1 H2 H3 H4 H5].
  assert (Hoth : forall q v, q <> vid -> om_get (voters s) q = Some v ->
     (exists L, vrep (hp_vp s') (hp_vv s') q (v_vp v) L /\ (forall a, a ∈ L.*1 -> P q a) /\
        bal (eqm q) (v_avail v + used L) (locked_vp (v_lps v))) /\ pw s' v = pw s v).
  { intros q v Hq Hv. destruct (H2 _ _ Hv) as (L & HrL & HLL & HbL).
    assert (HrL' : vrep (hp_vp s') (hp_vv s') q (v_vp v) L).
    { eapply vrep_frame; [exact HrL|apply F1; exact Hq|].
      intros a Ha. apply F2. intros a2 Ha2 E. destruct (HP _ _ _ _ (HLL _ Ha) Ha2 E). auto. }
    split; [exists L; auto|]. unfold pw.
    rewrite (used_raw_rep _ _ _ _ _ HrL), (used_raw_rep _ _ _ _ _ HrL'). reflexivity. }
  assert (Hpw' : pw s' v' = v_avail v' + used L').
  { unfold pw. rewrite (used_raw_rep _ _ _ _ _ Hr). reflexivity. }
  constructor.
  - rewrite Ev. apply om_set_NoDup. exact H1.
  - rewrite Ev. intros q v Hv. destruct (decide (vid = q)) as [<-|Hne].
    + rewrite om_get_set_eq in Hv. injection Hv as <-. exists L'. auto.
    + rewrite om_get_set_ne in Hv by exact Hne. apply Hoth; [congruence|exact Hv].
  - assert (Hsum : om_sum (fun _ v => pw s' v) (om_remove (voters s) vid)
                 = om_sum (fun _ v => pw s v) (om_remove (voters s) vid)).
    { apply om_sum_ext; [|apply om_remove_NoDup; exact H1]. intros k v Hg.
      assert (k <> vid) as Hk. { intros ->. rewrite om_get_remove_eq in Hg by exact H1. discriminate. }
      rewrite om_get_remove_ne in Hg by (auto; congruence). apply (Hoth k v Hk Hg). }
    rewrite Ev. unfold get_voter in Ht. destruct (om_get (voters s) vid) as [v|] eqn:E; cbn in Ht.
    + pose proof (om_sum_remove (fun _ v => pw s' v) _ _ _ E) as S1.
      pose proof (om_sum_remove (fun _ v => pw s v) _ _ _ E) as S2.
      pose proof (om_sum_set_old (fun _ v => pw s' v) _ _ _ v' E) as S3. cbn beta in *. lia.
    + pose proof (om_sum_set_new (fun _ v => pw s' v) _ _ v' E) as S3.
      rewrite (om_remove_None _ _ E) in Hsum. rewrite S3, Hsum, <- H3, Hpw'.
      assert (pw s (new_voter vid) = 0) as Hz.
      { apply pw_new. }
      lia.
  - exact Hbnd.
  - intros q d Hq Hd. rewrite Ev. destruct (decide (vid = q)) as [<-|Hne].
    + rewrite om_get_set_eq. eauto.
    + rewrite om_get_set_ne by exact Hne. eauto.
Qed.

(** changes that do not touch the votes *)
Lemma inv_upd s vid v' t :
  Inv eqm P s -> v_vp v' = v_vp (get_voter s vid) ->
  (forall u, bal (eqm vid) (v_avail (get_voter s vid) + u) (locked_vp (v_lps (get_voter s vid))) ->
             bal (eqm vid) (v_avail v' + u) (locked_vp (v_lps v'))) ->
  t + v_avail (get_voter s vid) = total_vp s + v_avail v' -> t < U128_SIZE ->
  Inv eqm P (upd s vid v' t).
Proof.
  intros HI E1 E2 E3 E4. destruct (inv_get s vid HI) as (L & Hr & HL & Hb & Hpw & _).
  eapply (inv_update s (upd s vid v' t) vid v' L); try assumption; cbn; auto.
  - rewrite E1. exact Hr.
  - rewrite Hpw. lia.
Qed.

Lemma upd_same s vid v : upd s vid v (total_vp s) = save_voter s vid v.
Proof. destruct s; reflexivity. Qed.

Lemma inv_remove s vid v :
  Inv eqm P s -> om_get (voters s) vid = Some v -> pw s v = 0 ->
  (forall d, eqm vid = Some d -> d = 0) ->
  Inv eqm P (s <| voters := om_remove (voters s) vid |>).
Proof.
  intros [H1 H2 H3 H4 H5] Hv Hz Hd. constructor; cbn; auto.
  - apply om_remove_NoDup. exact H1.
  - intros q w Hq. destruct (decide (vid = q)) as [<-|Hne].
    + rewrite om_get_remove_eq in Hq by exact H1. discriminate.
    + rewrite om_get_remove_ne in Hq by auto. apply H2. exact Hq.
  - pose proof (om_sum_remove (fun _ v => pw s v) _ _ _ Hv) as S1. cbn beta in S1.
    unfold pw in *. cbn. lia.
  - intros q d Hq Hdq. destruct (decide (vid = q)) as [<-|Hne].
    + rewrite (Hd _ Hq) in Hdq. lia.
    + rewrite om_get_remove_ne by auto. eauto.
Qed.

(** ** Each operation *)

Lemma inv_deposit s vid v amount days s' v' :
  Inv eqm P s -> v_avail v = v_avail (get_voter s vid) -> v_vp v = v_vp (get_voter s vid) ->
  locked_vp (v_lps v) = locked_vp (v_lps (get_voter s vid)) ->
  deposit_locking_position s amount days vid v = Ok (s', v') ->
  Inv eqm P s' /\ get_voter s' vid = v'.
Proof.
  intros HI E1 E2 E3 H. apply deposit_inv in H as (vp & l' & _ & _ & Hd & _ & Ht & -> & ->).
  split.
  - apply inv_upd; [exact HI|exact E2| |cbn; lia|exact Ht].
    intros u. cbn. rewrite (dep_lps_locked _ _ _ _ _ _ Hd), E1, E3. apply bal_shift. lia.
  - unfold get_voter. cbn. rewrite om_get_set_eq. reflexivity.
Qed.

Lemma inv_lps_upd s vid v l' vp bal' :
  Inv eqm P s -> om_get (voters s) vid = Some v ->
  locked_vp l' = locked_vp (v_lps v) + vp -> total_vp s + vp < U128_SIZE ->
  Inv eqm P (upd s vid (mkVoter bal' l' (v_avail v + vp) (v_vp v)) (total_vp s + vp)).
Proof.
  intros HI Hv Hl Ht. apply inv_upd; [exact HI| | | |exact Ht];
    rewrite (get_voter_Some _ _ _ Hv); cbn; [reflexivity| |lia].
  intros u. rewrite Hl. apply bal_shift. lia.
Qed.

(** vp comes off both the available and the total; the locked sum drops by at most that *)
Lemma inv_lps_upd_sub s vid v l' vp bal' :
  Inv eqm P s -> om_get (voters s) vid = Some v -> vp <= v_avail v ->
  match eqm vid with
  | None => locked_vp l' + vp = locked_vp (v_lps v)
  | Some _ => locked_vp (v_lps v) <= locked_vp l' + vp
  end ->
  Inv eqm P (upd s vid (mkVoter bal' l' (v_avail v - vp) (v_vp v)) (total_vp s - vp)).
Proof.
  intros HI Hv Hle Hl.
  pose proof (inv_get s vid HI) as (L & _ & _ & _ & Hpw & Hpt).
  rewrite (get_voter_Some _ _ _ Hv) in Hpw, Hpt. pose proof (i_bnd _ _ _ HI) as Hbnd.
  apply inv_upd; [exact HI| | | |lia];
    rewrite (get_voter_Some _ _ _ Hv); cbn; [reflexivity| |lia].
  intros u. unfold bal. destruct (eqm vid); lia.
Qed.

Lemma inv_unlock c s i s' :
  Inv eqm P s ->
  (eqm (c_pred c) = None -> exists p, v_lps (get_voter s (c_pred c)) !! i = Some p /\ is_locked p = true) ->
  unlock_position c s i = Ok s' -> Inv eqm P s'.
Proof.
  intros HI HQ H. apply unlock_inv in H as (v & p & Hv & Hl & Hle & ->).
  apply inv_lps_upd_sub; auto.
  pose proof (locked_vp_insert _ _ _ (mkLpos (lp_amount p) (lp_days p) (lp_vp p) (Some (now_ms c))) Hl) as Hi.
  unfold is_locked in Hi at 2. cbn [lp_unl] in Hi.
  destruct (eqm (c_pred c)) as [d|]; cycle 1.
  { destruct (HQ eq_refl) as (p' & Hp' & Hlk). rewrite (get_voter_Some _ _ _ Hv) in Hp'.
    assert (p' = p) as -> by congruence. rewrite Hlk in Hi. lia. }
  destruct (is_locked p); lia.
Qed.

Lemma inv_unlock_partial c s i amount s' :
  Inv eqm P s ->
  (eqm (c_pred c) = None -> exists p, v_lps (get_voter s (c_pred c)) !! i = Some p /\ is_locked p = true) ->
  unlock_partial_position c s i amount = Ok s' -> Inv eqm P s'.
Proof.
  intros HI HQ H. apply unlock_partial_inv in H as [[H _]|(v & p & vp & Hv & Hl & _ & _ & _ & _ & _ & Hle & Hle2 & _ & ->)].
  { eapply inv_unlock; eauto. }
  apply inv_lps_upd_sub; auto.
  pose proof (locked_vp_insert _ _ _ (mkLpos (lp_amount p - amount) (lp_days p) (lp_vp p - vp) (lp_unl p)) Hl) as Hi.
  unfold is_locked in Hi. cbn [lp_unl lp_vp] in Hi.
  rewrite locked_vp_app.
  assert (locked_vp [mkLpos amount (lp_days p) vp (Some (now_ms c))] = 0) as -> by reflexivity.
  destruct (eqm (c_pred c)) as [d|]; cycle 1.
  { destruct (HQ eq_refl) as (p' & Hp' & Hlk). rewrite (get_voter_Some _ _ _ Hv) in Hp'.
    assert (p' = p) as -> by congruence. unfold is_locked in Hlk.
    destruct (lp_unl p); [discriminate|]. lia. }
  destruct (lp_unl p); lia.
Qed.

Lemma inv_extend c s i days s' :
  Inv eqm P s -> locking_position_extend_days c s i days = Ok s' -> Inv eqm P s'.
Proof.
  intros HI H. apply extend_inv in H as (v & p & nvp & Hv & Hl & _ & Hu & _ & _ & Hle & Ht & _ & ->).
  apply inv_lps_upd; auto.
  pose proof (locked_vp_insert _ _ _ (mkLpos (lp_amount p) days nvp None) Hl) as Hi.
  rewrite (locked_unl _ Hu) in Hi. unfold is_locked in Hi. cbn [lp_unl lp_vp] in Hi. lia.
Qed.

Lemma inv_relock c s i days afb s' :
  Inv eqm P s -> relock_position c s i days afb = Ok s' -> Inv eqm P s'.
Proof.
  intros HI H. apply relock_inv in H as (v & p & st & vp & l' & Hv & Hl & _ & Hu & _ & _ & _ & _ & Hd & _ & Ht & ->).
  apply inv_lps_upd; auto. rewrite (dep_lps_locked _ _ _ _ _ _ Hd).
  pose proof (locked_vp_swap_remove _ _ _ Hl) as Hi. rewrite (unl_locked _ _ Hu) in Hi. lia.
Qed.

Lemma inv_relock_partial c s i afp days afb s' :
  Inv eqm P s -> relock_partial_position c s i afp days afb = Ok s' -> Inv eqm P s'.
Proof.
  intros HI H.
  apply relock_partial_inv in H as (v & p & st & vp & l1 & l' & b1 & Hv & Hl & _ & _ & _ & _ & Hu & Hcase & _ & _ & Hd & _ & Ht & ->).
  apply inv_lps_upd; auto. rewrite (dep_lps_locked _ _ _ _ _ _ Hd).
  destruct Hcase as [(_ & _ & _ & _ & nvp & _ & ->)|(_ & _ & _ & ->)].
  - pose proof (locked_vp_insert _ _ _ (mkLpos (lp_amount p - afp) (lp_days p) nvp (lp_unl p)) Hl) as Hi.
    unfold is_locked in Hi. cbn [lp_unl] in Hi. rewrite Hu in Hi. rewrite Hu. lia.
  - pose proof (locked_vp_swap_remove _ _ _ Hl) as Hi. rewrite (unl_locked _ _ Hu) in Hi. lia.
Qed.

Lemma inv_relock_balance c s days amount s' :
  Inv eqm P s -> relock_from_balance c s days amount = Ok s' -> Inv eqm P s'.
Proof.
  intros HI H. apply relock_from_balance_inv in H as (v & vp & l' & Hv & _ & _ & _ & _ & Hd & _ & Ht & ->).
  apply inv_lps_upd; auto. apply (dep_lps_locked _ _ _ _ _ _ Hd).
Qed.

Lemma inv_save_clears s vid v v1 :
  Inv eqm P s -> om_get (voters s) vid = Some v ->
  v_avail v1 = v_avail v -> v_vp v1 = v_vp v -> locked_vp (v_lps v1) = locked_vp (v_lps v) ->
  Inv eqm P (save_voter s vid v1).
Proof.
  intros HI Hv E1 E2 E3. rewrite <- upd_same. pose proof (i_bnd _ _ _ HI).
  apply inv_upd; auto; rewrite (get_voter_Some _ _ _ Hv); [exact E2| |lia].
  intros u. rewrite E1, E3. auto.
Qed.

Lemma inv_clear c s l s' : Inv eqm P s -> clear_locking_position c s l = Ok s' -> Inv eqm P s'.
Proof.
  intros HI H. apply clear_positions_inv in H as (v & v1 & Hv & Hc & _ & ->).
  destruct (clears_facts _ _ _ Hc) as (E1 & E2 & E3). eapply inv_save_clears; eauto.
Qed.

Lemma inv_withdraw c s vid l amt s' e :
  Inv eqm P s -> internal_withdraw c s vid l amt = Ok (s', e) -> Inv eqm P s'.
Proof.
  intros HI H. apply withdraw_inv in H as (v & v1 & t & Hv & Hc & _ & _ & _ & _ & _ & _ & Hcase).
  destruct (clears_facts _ _ _ Hc) as (E1 & E2 & E3).
  destruct Hcase as [(_ & Hnil & ->)|(_ & ->)].
  - pose proof (inv_get s vid HI) as (L & _ & _ & Hb & Hpw & _).
    rewrite (get_voter_Some _ _ _ Hv) in *. rewrite Hnil in E3.
    unfold bal in Hb. change (locked_vp []) with 0 in E3.
    eapply inv_remove; eauto; [rewrite Hpw; destruct (eqm vid); lia|].
    intros d Hd. rewrite Hd in Hb. lia.
  - eapply inv_save_clears; eauto.
Qed.

Lemma inv_remove_claim s a x s1 :
  Inv eqm P s -> remove_claimable_mpdao s a x = Ok s1 -> Inv eqm P s1.
Proof. intros HI H. apply remove_claimable_mpdao_inv in H as (_ & _ & ->). eapply inv_ext; eauto. Qed.

Lemma inv_claim_and_lock c s amount days s' :
  Inv eqm P s -> claim_and_lock c s amount days = Ok s' -> Inv eqm P s'.
Proof.
  intros HI H. apply claim_and_lock_inv in H as (s1 & v & vp & l' & Hr & _ & Hv & _ & _ & Hd & _ & Ht & ->).
  apply inv_lps_upd; auto; [|apply (dep_lps_locked _ _ _ _ _ _ Hd)].
  eapply inv_remove_claim; eauto.
Qed.

Lemma inv_migration c s vid l d s' :
  Inv eqm P s -> migration_create_lps c s vid l d = Ok s' -> Inv eqm P s'.
Proof.
  intros HI H. unfold migration_create_lps in H. rinv.
  assert (Inv eqm P s0 /\ get_voter s0 vid = v) as [HI0 _].
  { match goal with H : foldM _ _ _ = Ok _ |- _ => rename H into HF end.
    eapply (foldM_inv (fun sv => Inv eqm P sv.1 /\ get_voter sv.1 vid = sv.2)) in HF; [exact HF| |].
    - intros [s2 v2] lp [s3 v3] _ [HI2 Hg] Hd. cbn in *.
      eapply inv_deposit in Hd; eauto; rewrite Hg; reflexivity.
    - cbn. auto. }
  destruct d as [d|]; [|rinv; exact HI0].
  destruct (om_get (user_data s0) (c_pred c)); rinv; [exact HI0|]. eapply inv_ext; eauto.
Qed.

(** voting *)
Lemma increase_total_inv s vp addr obj s' :
  increase_total_votes s vp addr obj = Ok s' -> exists vs, s' = s <| votes := vs |>.
Proof. intros H. unfold increase_total_votes in H. rinv. eauto. Qed.
Lemma decrease_total_inv s vp addr obj s' :
  decrease_total_votes s vp addr obj = Ok s' -> exists vs, s' = s <| votes := vs |>.
Proof. intros H. unfold decrease_total_votes in H. rinv. eauto. Qed.

Lemma create_vp_inv s vid v vp addr obj s' v' L :
  vrep (hp_vp s) (hp_vv s) vid (v_vp v) L ->
  internal_create_voting_position s vid v vp addr obj = Ok (s', v') ->
  exists L', vrep (hp_vp s') (hp_vv s') vid (v_vp v') L' /\
    vframe vid (hp_vp s) (hp_vv s) (hp_vp s') (hp_vv s') L' /\
    used L' = used L + vp /\ vp <= v_avail v /\ v_avail v' = v_avail v - vp /\
    (forall a, a ∈ L'.*1 -> a ∈ L.*1 \/ a = addr) /\
    v_lps v' = v_lps v /\ v_bal v' = v_bal v /\
    N.of_nat (length L) <= max_vps s /\
    (length L' <= S (length L))%nat /\
    exists vs hv hp, s' = s <| votes := vs |> <| hp_vv := hv |> <| hp_vp := hp |>.
Proof.
  intros Hr H. unfold internal_create_voting_position, get_vote_position_for_address in H. rinv. nb.
  match goal with H : increase_total_votes _ _ _ _ = Ok _ |- _ => apply increase_total_inv in H as [vs ->] end.
  edestruct (set_vote_weak vid _ _ _ _ Hr) as (L' & H1 & H2 & H3 & H4 & _ & H6); try eassumption.
  exists L'. cbn in *.
  split; [exact H1|]. split; [exact H2|]. split; [lia|]. split; [assumption|].
  split; [reflexivity|]. split; [intros a Ha; destruct (H4 a Ha) as [?|[_ ?]]; auto|]. split; [reflexivity|]. split; [reflexivity|].
  split. { destruct (vr_outer _ _ _ _ _ Hr) as [Hlen _]. unfold outer in Hlen. rewrite fmap_length in Hlen.
           rewrite <- Hlen. assumption. }
  split; [lia|].
  exists vs. eexists _, _. destruct s; reflexivity.
Qed.

Lemma remove_vp_inv s vid v addr obj s' v' L :
  vrep (hp_vp s) (hp_vv s) vid (v_vp v) L ->
  internal_remove_voting_position s vid v addr obj = Ok (s', v') ->
  exists L' x, vrep (hp_vp s') (hp_vv s') vid (v_vp v') L' /\
    vframe vid (hp_vp s) (hp_vv s) (hp_vp s') (hp_vv s') L /\
    used L' + x = used L /\ v_avail v' = v_avail v + x /\
    (forall a, a ∈ L'.*1 -> a ∈ L.*1) /\
    v_lps v' = v_lps v /\ v_bal v' = v_bal v /\ (length L' <= length L)%nat /\
    (exists h o, uget (hp_vp s) (v_vp v) addr = Ok o /\ h = default (unew (vkey vid addr)) o /\
       uget (hp_vv s) h obj = Ok (Some x)) /\
    exists vs hv hp, s' = s <| votes := vs |> <| hp_vv := hv |> <| hp_vp := hp |>.
Proof.
  intros Hr H. unfold internal_remove_voting_position, get_vote_position_for_address in H.
  apply bind_Ok in H as (h & Hh & H). apply bind_Ok in Hh as (o & Ho & Hh). injection Hh as <-.
  apply bind_Ok in H as (oo & Hoo & H). apply bind_Ok in H as (x & Hx & H). apply expect_Ok in Hx. subst oo.
  apply bind_Ok in H as (av & Hav & H). apply add128_Ok in Hav as [-> Hav].
  apply bind_Ok in H as ([hv h'] & Hrv & H). apply bind_Ok in H as ([hp vph] & Hrp & H).
  apply bind_Ok in H as (s1 & Hdec & H). injection H as <- <-.
  apply decrease_total_inv in Hdec as [vs ->].
  edestruct (remove_vote_weak vid _ _ _ _ Hr) as (L' & H1 & H2 & H3 & H4 & H5); try eassumption.
  exists L', x. cbn.
  split; [exact H1|]. split; [exact H2|]. split; [exact H3|]. split; [reflexivity|].
  split; [exact H4|]. split; [reflexivity|]. split; [reflexivity|]. split; [exact H5|].
  split; [eauto|].
  exists vs, hv, hp. destruct s; reflexivity.
Qed.

Lemma inv_vote s vid vp addr obj s' :
  Inv eqm P s -> P vid addr -> internal_vote s vid vp addr obj = Ok s' -> Inv eqm P s'.
Proof.
  intros HI Hp H. unfold internal_vote, get_voter_or_panic in H.
  apply bind_Ok in H as (v & E & H). apply expect_Ok in E.
  apply bind_Ok in H as ([s1 v0] & E0 & H). injection H as <-.
  pose proof (inv_get s vid HI) as (L & Hr & HL & Hb & Hpw & _).
  rewrite (get_voter_Some _ _ _ E) in Hr, Hb, Hpw.
  eapply create_vp_inv in E0; [|exact Hr].
  destruct E0 as (L' & Hr' & [F1 F2] & Hu & Hle & Hav & HL' & Hlp & _ & _ & _ & vs & hv & hp & Es).
  assert (HPL' : forall a, a ∈ L'.*1 -> P vid a).
  { intros a Ha. destruct (HL' _ Ha) as [Ha'| ->]; auto. }
  pose proof (i_bnd _ _ _ HI).
  eapply (inv_update s _ vid v0 L'); cbn [voters hp_vp hp_vv total_vp save_voter set]; auto.
  - rewrite Es. reflexivity.
  - rewrite Hlp, Hav, Hu. eapply bal_shift; [|exact Hb]. lia.
  - rewrite (get_voter_Some _ _ _ E), Hpw, Hav, Hu. rewrite Es. cbn. lia.
  - rewrite Es. cbn. assumption.
Qed.

Lemma inv_unvote c s vid addr obj s' :
  Inv eqm P s -> internal_unvote c s vid addr obj = Ok s' -> Inv eqm P s'.
Proof.
  intros HI H. unfold internal_unvote, get_voter_or_panic in H.
  apply bind_Ok in H as (? & _ & H). apply bind_Ok in H as (v & Hv & H). apply expect_Ok in Hv.
  apply bind_Ok in H as ([s1 v0] & Hrm & H). injection H as <-.
  pose proof (inv_get s vid HI) as (L & Hr & HL & Hb & Hpw & _).
  rewrite (get_voter_Some _ _ _ Hv) in Hr, Hb, Hpw.
  eapply remove_vp_inv in Hrm; [|exact Hr].
  destruct Hrm as (L' & y & Hr' & [F1 F2] & Hu & Hav & HL' & Hlp & _ & _ & _ & vs & hv & hp & Es).
  pose proof (i_bnd _ _ _ HI).
  eapply (inv_update s _ vid v0 L'); cbn [voters hp_vp hp_vv total_vp save_voter set]; auto.
  - rewrite Es. reflexivity.
  - rewrite Hlp, Hav. eapply bal_shift; [|exact Hb]. lia.
  - rewrite (get_voter_Some _ _ _ Hv), Hpw, Hav. rewrite Es. cbn. lia.
  - rewrite Es. cbn. assumption.
Qed.

Lemma inv_rebalance c s vp addr obj s' :
  Inv eqm P s -> rebalance c s vp addr obj = Ok s' -> Inv eqm P s'.
Proof.
  intros HI H. unfold rebalance, get_voter_or_panic, get_vote_position_for_address in H.
  apply bind_Ok in H as (u0 & _ & H). cbn zeta in H. apply bind_Ok in H as (v & Hv & H). apply expect_Ok in Hv.
  apply bind_Ok in H as (h & Hh & H). apply bind_Ok in Hh as (o & Ho & Hh). injection Hh as <-.
  apply bind_Ok in H as (oo & Hoo & H). apply bind_Ok in H as (x & Hx & H). apply expect_Ok in Hx. subst oo.
  apply bind_Ok in H as (u1 & Hne & H). apply require_Ok in Hne. nb.
  destruct (vp =? 0) eqn:Evp; [eapply inv_unvote; eauto|]. nb.
  set (vid := c_pred c) in *.
  apply bind_Ok in H as ([[s1 av] vts'] & Hmid & H).
  assert (exists vs, s1 = s <| votes := vs |> /\ vts' = vp /\ av + vp = v_avail v + x) as (vs & -> & -> & Hav).
  { destruct (x <? vp) eqn:Elt; rinv; nb.
    - match goal with H : increase_total_votes _ _ _ _ = Ok _ |- _ => apply increase_total_inv in H as [vs ->] end.
      exists vs. repeat split; lia.
    - match goal with H : decrease_total_votes _ _ _ _ = Ok _ |- _ => apply decrease_total_inv in H as [vs ->] end.
      exists vs. repeat split; lia. }
  apply bind_Ok in H as ([hv h'] & Hiv & H). apply bind_Ok in H as ([hp vph] & Hip & H).
  injection H as <-. cbn in Hiv, Hip.
  pose proof (inv_get s vid HI) as (L & Hr & HL & Hb & Hpw & _).
  rewrite (get_voter_Some _ _ _ Hv) in Hr, Hb, Hpw.
  edestruct (set_vote_weak vid _ _ _ _ Hr) as (L' & Hr' & [F1 F2] & Hu & HL' & _ & _); try eassumption.
  cbn [default from_option id] in Hu.
  assert (o <> None).
  { intros ->. cbn in Hoo. unfold uget, cget, vec_get, unew in Hoo. cbn in Hoo.
    destruct (ce_idx _ !! obj); [|discriminate]. discriminate. }
  assert (HPL' : forall a, a ∈ L'.*1 -> P vid a).
  { intros a Ha. destruct (HL' _ Ha) as [Ha'|[? _]]; [auto|contradiction]. }
  pose proof (i_bnd _ _ _ HI).
  eapply (inv_update s _ vid _ L'); cbn [voters hp_vp hp_vv total_vp save_voter set]; auto.
  - cbn. eapply bal_shift; [|exact Hb]. lia.
  - cbn. rewrite (get_voter_Some _ _ _ Hv), Hpw. lia.
Qed.

(** the vote removal loop of mirroring *)
Lemma mirror_loop_inv fuel : forall s vid v u new L s' v' u',
  vrep (hp_vp s) (hp_vv s) vid (v_vp v) L -> u = used L ->
  mirror_loop fuel s vid v u new = Ok (s', v', u') ->
  exists L', vrep (hp_vp s') (hp_vv s') vid (v_vp v') L' /\
    vframe vid (hp_vp s) (hp_vv s) (hp_vp s') (hp_vv s') L /\
    u' = used L' /\ (forall a, a ∈ L'.*1 -> a ∈ L.*1) /\
    v_lps v' = v_lps v /\ v_bal v' = v_bal v /\ v_avail v' + u' = v_avail v + u /\
    u' <= new /\ (length L' <= length L)%nat /\
    exists vs hv hp, s' = s <| votes := vs |> <| hp_vv := hv |> <| hp_vp := hp |>.
Proof.
  induction fuel as [|fuel IH]; intros s vid v u new L s' v' u' Hr Hu H; simpl in H;
    destruct (new <? u) eqn:Elt; nb; try discriminate.
  - injection H as <- <- <-. exists L. split; [exact Hr|]. split; [split; auto|].
    split; [exact Hu|]. split; [auto|]. split; [auto|]. split; [auto|]. split; [auto|].
    split; [lia|]. split; [lia|]. exists (votes s), (hp_vv s), (hp_vp s). destruct s; reflexivity.
  - apply bind_Ok in H as (ok & _ & H). apply bind_Ok in H as (addr & _ & H).
    apply bind_Ok in H as (oh & Hoh & H). apply bind_Ok in H as (h & Hh & H). apply expect_Ok in Hh. subst oh.
    apply bind_Ok in H as (oo & _ & H). apply bind_Ok in H as (obj & _ & H).
    apply bind_Ok in H as (ov & Hov & H). apply bind_Ok in H as (x & Hx & H). apply expect_Ok in Hx. subst ov.
    apply bind_Ok in H as ([s1 v1] & Hrm & H). apply bind_Ok in H as (u1 & Hu1 & H).
    apply sub128_Ok in Hu1 as [-> Hle].
    eapply remove_vp_inv in Hrm; [|exact Hr].
    destruct Hrm as (L1 & y & Hr1 & [F1 F2] & Hy & Hav & HL1 & Hlp & Hbal & Hlen & (h2 & o2 & Ho2 & -> & Hg2) & vs & hv & hp & Es).
    rewrite Hoh in Ho2. injection Ho2 as <-. cbn in Hg2. rewrite Hov in Hg2. injection Hg2 as <-.
    assert (Hu1 : u - x = used L1) by lia.
    destruct (IH _ _ _ _ _ _ _ _ _ Hr1 Hu1 H) as (L' & Hr' & [F1' F2'] & Hu' & HL' & Hlp' & Hbal' & Hav' & Hnew & Hlen' & vs' & hv' & hp' & Es').
    exists L'. split; [exact Hr'|]. split.
    { split.
      - intros q Hq. rewrite F1' by exact Hq. apply F1; exact Hq.
      - intros q Hq. rewrite F2'; [apply F2; exact Hq|]. intros a Ha. apply Hq. auto. }
    split; [exact Hu'|]. split; [auto|]. split; [congruence|]. split; [congruence|]. split; [lia|].
    split; [exact Hnew|]. split; [lia|]. exists vs', hv', hp'. rewrite Es', Es. destruct s; reflexivity.
  - injection H as <- <- <-. exists L. split; [exact Hr|]. split; [split; auto|].
    split; [exact Hu|]. split; [auto|]. split; [auto|]. split; [auto|]. split; [auto|].
    split; [lia|]. split; [lia|]. exists (votes s), (hp_vv s), (hp_vp s). destruct s; reflexivity.
Qed.

Lemma create_lps_loop l : forall s v s' v' vps,
  mapMr (fun lp => calculate_voting_power lp.2 lp.1) l = Ok vps ->
  foldM (fun sv lp => internal_create_locking_position sv.1 sv.2 lp.2 lp.1) l (s, v) = Ok (s', v') ->
  s' = s <| total_vp := total_vp s + sumN vps |> /\
  v' = mkVoter (v_bal v) (v_lps v ++ zip_with (fun lp vp => mkLpos lp.2 lp.1 vp None) l vps)
         (v_avail v + sumN vps) (v_vp v) /\
  length vps = length l /\ (l <> [] -> total_vp s + sumN vps < U128_SIZE).
Proof.
  induction l as [|lp l IH]; intros s v s' v' vps Hm H; simpl in *.
  - injection Hm as <-. injection H as <- <-. change (sumN []) with 0. rewrite !N.add_0_r, app_nil_r.
    split; [destruct s; reflexivity|]. split; [destruct v; reflexivity|]. split; [reflexivity|]. congruence.
  - apply bind_Ok in Hm as (vp & Hvp & Hm). apply bind_Ok in Hm as (vps' & Hm & Hx). injection Hx as <-.
    destruct (internal_create_locking_position s v lp.2 lp.1) as [[s1 v1]|] eqn:E; [|discriminate].
    apply create_lp_inv in E as (vp' & Hvp' & _ & _ & _ & Ht & -> & ->).
    rewrite Hvp in Hvp'. injection Hvp' as <-.
    destruct (IH _ _ _ _ _ Hm H) as (-> & -> & Hlen & Hb). cbn in *.
    change (sumN (vp :: vps')) with (vp + sumN vps').
    split. { unfold set; cbn. f_equal; lia. }
    split. { f_equal; [|lia]. rewrite <- app_assoc. reflexivity. }
    split; [lia|]. intros _. destruct l.
    + simpl in *. injection Hm as <-. change (sumN []) with 0. lia.
    + specialize (Hb ltac:(discriminate)). lia.
Qed.

Lemma locked_zip l vps :
  length vps = length l ->
  locked_vp (zip_with (fun (lp : N * N) vp => mkLpos lp.2 lp.1 vp None) l vps) = sumN vps.
Proof.
  revert vps. induction l as [|lp l IH]; intros [|vp vps] H; simpl in *; try discriminate; [reflexivity|].
  unfold locked_vp in *. rewrite sum_by_cons. cbn. rewrite IH by lia. reflexivity.
Qed.

Lemma mirror_inv c s ext l s' :
  Inv eqm P s -> operator_mirror_lps c s ext l = Ok s' ->
  exists L L' vps v1 s1,
    let vid := pseudo_near_address ext in
    let v := get_voter s vid in
    operator_id s = c_pred c /\ c_deposit c = 0 /\
    vrep (hp_vp s) (hp_vv s) vid (v_vp v) L /\ pw s v = v_avail v + used L /\ (forall a, a ∈ L.*1 -> P vid a) /\
    mapMr (fun lp => calculate_voting_power lp.2 lp.1) l = Ok vps /\ length vps = length l /\
    mirror_loop (S (vote_entries s v)) s vid v (used L) (sumN vps) = Ok (s1, v1, used L') /\
    (exists vs hv hp, s1 = s <| votes := vs |> <| hp_vv := hv |> <| hp_vp := hp |>) /\
    vrep (hp_vp s1) (hp_vv s1) vid (v_vp v1) L' /\
    vframe vid (hp_vp s) (hp_vv s) (hp_vp s1) (hp_vv s1) L /\ (forall a, a ∈ L'.*1 -> a ∈ L.*1) /\
    used L' <= sumN vps /\
    total_vp s + sumN vps < U128_SIZE /\ (length L' <= length L)%nat /\
    s' = upd s1 vid (mkVoter (v_bal v) (zip_with (fun lp vp => mkLpos lp.2 lp.1 vp None) l vps)
            (sumN vps - used L') (v_vp v1)) (total_vp s + sumN vps - pw s v).
Proof.
  intros HI H. unfold operator_mirror_lps, assert_operator, non_payable in H. cbn zeta in H.
  set (vid := pseudo_near_address ext) in *. set (v := get_voter s vid) in *.
  apply bind_Ok in H as (? & Hd & H). apply require_Ok in Hd. nb.
  apply bind_Ok in H as (? & Hop & H). apply require_Ok, bool_decide_eq_true in Hop.
  apply bind_Ok in H as (u & Hu & H). apply bind_Ok in H as (prev & Hprev & H).
  apply add128_Ok in Hprev as [-> Hprev].
  apply bind_Ok in H as (vps & Hvps & H). apply bind_Ok in H as (new & Hnew & H).
  apply sum128_Ok in Hnew as [-> Hnew].
  apply bind_Ok in H as ([[s1 v1] u1] & Hloop & H).
  apply bind_Ok in H as ([s2 v3] & Hcr & H). apply bind_Ok in H as (av & Hav & H).
  apply sub128_Ok in Hav as [-> Hav]. apply bind_Ok in H as (t & Ht & H).
  apply sub128_Ok in Ht as [-> Ht]. injection H as <-.
  pose proof (inv_get s vid HI) as (L & Hr & HL & Hb & Hpw & Hpt). fold v in Hr, Hb, Hpw, Hpt.
  pose proof (i_bnd _ _ _ HI) as Hbnd.
  assert (u = used L) as ->. { rewrite (sum_used_rep s v vid L Hr) in Hu by lia. congruence. }
  pose proof (mirror_loop_inv _ _ _ _ _ _ _ _ _ _ Hr eq_refl Hloop)
    as (L' & Hr' & Hf & -> & HL' & Hlp & Hbal & Hav1 & Hle & Hlen & Es).
  destruct (create_lps_loop _ _ _ _ _ _ Hvps Hcr) as (-> & -> & Hlv & Hlt). cbn in *.
  destruct Es as (vs & hv & hp & Es).
  exists L, L', vps, v1, s1. cbn zeta. fold vid. fold v. rewrite Hpw.
  split; [auto|]. split; [auto|]. split; [exact Hr|]. split; [reflexivity|].
  split; [exact HL|]. split; [exact Hvps|]. split; [exact Hlv|]. split; [exact Hloop|].
  split; [eauto|]. split; [exact Hr'|]. split; [exact Hf|]. split; [exact HL'|].
  split; [exact Hle|].
  split. { destruct l; [|specialize (Hlt ltac:(discriminate)); rewrite Es in Hlt; exact Hlt].
           simpl in Hvps. injection Hvps as <-. change (sumN []) with 0. lia. }
  split; [exact Hlen|].
  assert (Ht1 : total_vp s1 = total_vp s) by (rewrite Es; reflexivity).
  rewrite <- Ht1, Hbal. reflexivity.
Qed.

Lemma inv_mirror c s ext l s' :
  (forall d, eqm (pseudo_near_address ext) = Some d -> d = 0) ->
  Inv eqm P s -> operator_mirror_lps c s ext l = Ok s' -> Inv eqm P s'.
Proof.
  intros Hz HI H. pose proof (mirror_inv _ _ _ _ _ HI H)
    as (L & L' & vps & v1 & s1 & _ & _ & Hr & Hpw & HL & _ & Hlen & _ & (vs & hv & hp & Es) & Hr' & [F1 F2] & HL' & Hle & Hlt & _ & ->).
  set (vid := pseudo_near_address ext) in *.
  pose proof (inv_get s vid HI) as (_ & _ & _ & _ & _ & Hpt).
  eapply (inv_update s _ vid _ L'); [exact HI|cbn; rewrite Es; reflexivity| | |exact Hr'| | | |].
  - exact F1.
  - intros q Hq. apply F2. intros a Ha. apply Hq. auto.
  - auto.
  - cbn. rewrite locked_zip by exact Hlen. unfold bal. destruct (eqm vid); [rewrite (Hz _ eq_refl)|]; lia.
  - cbn. lia.
  - cbn. lia.
Qed.

Lemma inv_claims s s' : 
  (exists a b, s' = s <| claim_mp := a |> <| uncl_mp := b |>) -> Inv eqm P s -> Inv eqm P s'.
Proof. intros (a & b & ->) HI. eapply inv_ext; eauto. Qed.

Lemma inv_distribute c s total l s' :
  Inv eqm P s -> distribute_for_claims c s total l = Ok s' -> Inv eqm P s'.
Proof.
  intros HI H. unfold distribute_for_claims in H.
  apply bind_Ok in H as ([s2 d] & H & H'). apply bind_Ok in H' as (? & _ & H'). injection H' as <-.
  case_bool_decide; [|case_bool_decide; [|discriminate]];
    apply bind_Ok in H as ([s1 d1] & HF & H); apply bind_Ok in H as (acc & _ & H); injection H as <- _;
    (eapply (inv_ext s1); [|reflexivity|reflexivity|reflexivity|reflexivity]);
    eapply (foldM_inv (fun sd => Inv eqm P sd.1)) in HF; [exact HF| |exact HI| exact HF| |exact HI];
    intros [s3 d3] item [s4 d4] _ HI3 Hs; cbn in *; rinv;
    match goal with
    | H : add_claimable_mpdao _ _ _ = Ok _ |- _ => apply add_claimable_mpdao_inv in H as (_ & _ & _ & ->)
    | H : add_claimable_stnear _ _ _ = Ok _ |- _ => apply add_claimable_stnear_inv in H as (_ & _ & _ & ->)
    end; eapply inv_ext; eauto.
Qed.

Lemma inv_ft_on_transfer c s sender amount msg s' n :
  Inv eqm P s -> ft_on_transfer c s sender amount msg = Ok (s', n) -> Inv eqm P s'.
Proof.
  intros HI H. unfold ft_on_transfer in H.
  apply bind_Ok in H as (? & _ & H). apply bind_Ok in H as (fc & _ & H). destruct fc.
  - rinv. eapply inv_distribute; eauto.
  - apply bind_Ok in H as (? & _ & H). apply bind_Ok in H as (ip & _ & H).
    apply bind_Ok in H as ([vid days] & _ & H). apply bind_Ok in H as (? & _ & H).
    apply bind_Ok in H as ([s1 v1] & Hd & H). injection H as <- _.
    eapply inv_deposit in Hd; eauto. apply Hd.
Qed.

Ltac inv_trivial :=
  match goal with
  | H : noeff _ = Ok _ |- _ => apply noeff_Ok in H as [H _]
  end;
  rinv; eapply inv_ext; eauto.

(** Every successful call keeps the invariant. *)
Lemma inv_exec x s s' e :
  (forall t, vote_target x = Some t -> P t.1 t.2) ->
  (eqm (c_pred x.1) = None -> unlocks_locked s x) ->
  (forall ext l d, x.2 = MirrorLps ext l -> eqm (pseudo_near_address ext) = Some d -> d = 0) ->
  Inv eqm P s -> exec x.1 s x.2 = Ok (s', e) -> Inv eqm P s'.
Proof.
  destruct x as [c o]. cbn [fst snd]. intros HT HQ HM HI H.
  destruct o; cbn [exec] in H;
    try (apply noeff_Ok in H as [H _]);
    try (unfold set_stnear_contract, set_operator_id, set_owner_id, update_registration_cost,
      update_airdrop_user_data, operator_multi_set_airdrop_data, set_lock_in_vote_filters,
      update_min_unbond_period, update_max_unbond_period, set_prev_gov_contract,
      pre_delegate_evm_address, operator_remove_pre_delegate in H; rinv;
      solve [eapply inv_ext; eauto]).
  - eapply inv_claim_and_lock; eauto.
  - unfold claim_stnear in H. rinv.
    match goal with H : remove_claimable_stnear _ _ _ = Ok _ |- _ => apply remove_claimable_stnear_inv in H as (_ & _ & ->) end.
    eapply inv_ext; eauto.
  - rinv. eapply inv_unlock; eauto. intros He. specialize (HQ He). unfold unlocks_locked in HQ. cbn in HQ.
    destruct HQ as (j & Hj & Hlk).
    + exists (s', []). cbn. rewrite E. cbn. rewrite H. reflexivity.
    + unfold get_locking_position in Hj. destruct (v_lps (get_voter s (c_pred c)) !! i) as [p|] eqn:Ep; [|discriminate].
      cbn in Hj. injection Hj as <-. exists p. auto.
  - rinv. eapply inv_unlock_partial; eauto. intros He. specialize (HQ He). unfold unlocks_locked in HQ. cbn in HQ.
    destruct HQ as (j & Hj & Hlk).
    + exists (s', []). cbn. rewrite E. cbn. rewrite H. reflexivity.
    + unfold get_locking_position in Hj. destruct (v_lps (get_voter s (c_pred c)) !! i) as [p|] eqn:Ep; [|discriminate].
      cbn in Hj. injection Hj as <-. exists p. auto.
  - eapply inv_extend; eauto.
  - eapply inv_relock; eauto.
  - eapply inv_relock_partial; eauto.
  - eapply inv_relock_balance; eauto.
  - eapply inv_clear; eauto.
  - unfold vote in H. rinv. eapply inv_vote; [exact HI|apply (HT _ eq_refl)|exact H].
  - eapply inv_rebalance; eauto.
  - unfold unvote in H. rinv. eapply inv_unvote; eauto.
  - eapply inv_migration; eauto.
  - eapply inv_mirror; eauto.
  - unfold operator_confirm_delegated in H. apply bind_Ok in H as (? & _ & H). apply bind_Ok in H as (? & _ & H).
    destruct (evm_pre s !! evm) as [[a g]|]; [|rinv; exact HI]. cbn zeta in H.
    destruct (evm_sigs _ !! evm) as [[old g2]|].
    + destruct (bool_decide (old = a)); rinv; eapply inv_ext; try exact HI; reflexivity.
    + rinv. eapply inv_ext; try exact HI; reflexivity.
  - unfold delegated_claim_stnear in H. rinv.
    match goal with H : remove_claimable_stnear _ _ _ = Ok _ |- _ => apply remove_claimable_stnear_inv in H as (_ & _ & ->) end.
    eapply inv_ext; eauto.
  - unfold vote_delegated, verify_delegate in H. rinv. eapply inv_vote; [exact HI|apply (HT _ eq_refl)|exact H].
  - unfold unvote_delegated, verify_delegate in H. rinv. eapply inv_unvote; eauto.
  - unfold remove_delegated_evm_address in H. apply bind_Ok in H as (? & _ & H).
    destruct (evm_sigs s !! evm) as [[a g]|]; [|discriminate].
    destruct (bool_decide (a = c_pred c)); [|discriminate]. rinv. eapply inv_ext; eauto.
  - unfold withdraw in H. eapply inv_withdraw; eauto.
  - unfold withdraw_all in H. apply bind_Ok in H as (v & _ & H). eapply inv_withdraw; eauto.
  - unfold after_transfer_mpdao_callback in H. rinv. destruct ok; rinv; [exact HI|].
    rewrite <- upd_same. pose proof (i_bnd _ _ _ HI).
    apply inv_upd; auto.
  - unfold after_transfer_stnear_callback in H. rinv. destruct ok; rinv; [exact HI|].
    apply add_claimable_stnear_inv in H as (_ & _ & _ & ->). eapply inv_ext; eauto.
  - rinv. eapply inv_ft_on_transfer; eauto.
Qed.

End Inv.

Lemma inv_init eqm P a s : (forall vid d, eqm vid = Some d -> d = 0) -> mv_new a = Ok s -> Inv eqm P s.
Proof.
  unfold mv_new. intros Hz H. rinv. constructor; cbn; auto.
  - constructor.
  - intros vid v Hv. discriminate.
  - reflexivity.
  - intros vid d Hd Hp. rewrite (Hz _ _ Hd) in Hp. lia.
Qed.

Lemma weak_0 vid d : weak vid = Some d -> d = 0.
Proof. unfold weak. congruence. Qed.
Lemma strict_0 vid d : strict vid = Some d -> d = 0.
Proof. discriminate. Qed.

(** Reachable states. *)
Lemma along_inv (Q : state -> call -> Prop) (J : state -> Prop) s tr :
  along Q s tr -> J s ->
  (forall x s s' e, In x tr -> Q s x -> J s -> exec x.1 s x.2 = Ok (s', e) -> J s') ->
  J (run s tr).
Proof.
  revert s. induction tr as [|x tr IH]; intros s HQ Hs Hstep; [exact Hs|].
  destruct HQ as [Hq HQ]. simpl. apply IH; [exact HQ| |].
  - unfold step. destruct (exec x.1 s x.2) as [[s' e]|] eqn:E; [|exact Hs].
    eapply Hstep; [left; reflexivity|exact Hq|exact Hs|exact E].
  - intros y t t' e Hy. apply Hstep. right; exact Hy.
Qed.

Definition targetsP (tr : list call) (v a : string) : Prop := In (v, a) (vote_targets tr).

Lemma targets_injP tr : collision_free tr -> injP (targetsP tr).
Proof.
  intros H v1 a1 v2 a2 H1 H2 E. specialize (H _ _ H1 H2 E). injection H as -> ->. auto.
Qed.

Lemma In_vote_targets tr x t : In x tr -> vote_target x = Some t -> In t (vote_targets tr).
Proof.
  intros Hin Ht. unfold vote_targets. apply elem_of_list_In, elem_of_list_omap.
  exists x. split; [apply elem_of_list_In; exact Hin|exact Ht].
Qed.

Lemma inv_run a s0 tr :
  mv_new a = Ok s0 -> collision_free tr -> Inv weak (targetsP tr) (run s0 tr).
Proof.
  intros Hn Hc. apply (run_inv (Inv weak (targetsP tr))); [eapply inv_init; [exact weak_0|exact Hn]|].
  intros x s s' e Hin HI He. eapply inv_exec; eauto using targets_injP, weak_0.
  - intros [v ad] Ht. eapply In_vote_targets; eauto.
  - discriminate.
Qed.

Lemma inv_run_eq a s0 tr :
  mv_new a = Ok s0 -> collision_free tr -> along unlocks_locked s0 tr ->
  Inv strict (targetsP tr) (run s0 tr).
Proof.
  intros Hn Hc Ha. apply (along_inv unlocks_locked (Inv strict (targetsP tr))); [exact Ha|eapply inv_init; [exact strict_0|exact Hn]|].
  intros x s s' e Hin HQ HI He. eapply inv_exec; eauto using targets_injP, strict_0.
  intros [v ad] Ht. eapply In_vote_targets; eauto.
Qed.

(** ** Consequences in terms of the views *)
Lemma locked_power_eq s vid : locked_power s vid = locked_vp (v_lps (get_voter s vid)).
Proof.
  unfold locked_power, get_all_locking_positions, locked_vp, sum_by. f_equal.
  generalize (v_lps (get_voter s vid)) as l. intros l.
  enough (forall n, map (fun j => if j_is_locked j then j_vp j else 0)
     (imap (fun i p => lp_to_json 0 (n + i) p) l) = map (fun p => if is_locked p then lp_vp p else 0) l) as H by apply (H O).
  induction l as [|p l IH]; intros n; [reflexivity|]. rewrite imap_cons. cbn. f_equal.
  rewrite <- (IH (S n)). f_equal. apply imap_ext. intros i q _. cbn. f_equal. lia.
Qed.

Lemma inv_used eqm P s vid :
  Inv eqm P s -> exists u, get_used_voting_power s vid = Ok u /\ 
    u = used_raw (hp_vp s) (hp_vv s) (v_vp (get_voter s vid)) /\
    bal (eqm vid) (get_available_voting_power s vid + u) (locked_power s vid).
Proof.
  intros HI. destruct (inv_get _ _ s vid HI) as (L & Hr & _ & Hb & Hpw & Hpt).
  pose proof (i_bnd _ _ _ HI). exists (used L). unfold get_used_voting_power.
  rewrite (sum_used_rep _ _ _ _ Hr) by lia. rewrite locked_power_eq.
  rewrite (used_raw_rep _ _ _ _ _ Hr). auto.
Qed.

Lemma inv_total eqm P s :
  Inv eqm P s ->
  get_total_voting_power s
  = sum_by (fun vid => get_available_voting_power s vid + used_or0 s vid) (voter_ids s).
Proof.
  intros HI. unfold get_total_voting_power. rewrite (i_tot _ _ _ HI). unfold om_sum, voter_ids.
  rewrite sum_by_fmap. apply sum_by_ext. intros [vid v] Hin. cbn.
  pose proof (om_In_get _ _ _ (i_nd _ _ _ HI) Hin) as Hg.
  destruct (inv_used _ _ _ vid HI) as (u & Hu & Hraw & _). unfold used_or0. rewrite Hu.
  unfold get_available_voting_power. rewrite (get_voter_Some _ _ _ Hg) in *. unfold pw. lia.
Qed.

(** Sufficient conditions for [collision_free]. *)
Lemma append_hyphen_inj a b c d :
  has_hyphen a = false -> has_hyphen b = false ->
  a +:+ "-" +:+ c = b +:+ "-" +:+ d -> a = b /\ c = d.
Proof.
  revert b. induction a as [|x a IH]; intros [|y b] Ha Hb H; simpl in *.
  - injection H as ->. auto.
  - injection H as <- _. discriminate.
  - injection H as -> _. discriminate.
  - apply orb_false_iff in Ha as [_ Ha]. apply orb_false_iff in Hb as [_ Hb].
    injection H as -> H. destruct (IH _ Ha Hb H) as [-> ->]. auto.
Qed.

Lemma hyphen_app a b : has_hyphen (a +:+ b) = has_hyphen a || has_hyphen b.
Proof.
  induction a as [|x a IH]; [reflexivity|].
  change (has_hyphen (String x a +:+ b)) with (Ascii.eqb x "-" || has_hyphen (a +:+ b)).
  rewrite IH. apply orb_assoc.
Qed.

Lemma append_hyphen_inj_r a b c d :
  has_hyphen c = false -> has_hyphen d = false ->
  a +:+ "-" +:+ c = b +:+ "-" +:+ d -> a = b /\ c = d.
Proof.
  revert b. induction a as [|x a IH]; intros [|y b] Hc Hd H; simpl in *.
  - injection H as ->. auto.
  - injection H as _ H. exfalso. subst c. rewrite hyphen_app in Hc. cbn in Hc. rewrite orb_true_r in Hc. discriminate.
  - injection H as _ H. exfalso. subst d. rewrite hyphen_app in Hd. cbn in Hd. rewrite orb_true_r in Hd. discriminate.
  - injection H as -> H. destruct (IH _ Hc Hd H) as [-> ->]. auto.
Qed.

Lemma collision_free_addr tr :
  (forall p, In p (vote_targets tr) -> has_hyphen p.2 = false) -> collision_free tr.
Proof.
  intros H [a b] [c d] H1 H2 E. apply append_hyphen_inj_r in E as [? ?]; cbn in *; subst; auto.
  - apply (H _ H1).
  - apply (H _ H2).
Qed.
Lemma collision_free_voter tr :
  (forall p, In p (vote_targets tr) -> has_hyphen p.1 = false) -> collision_free tr.
Proof.
  intros H [a b] [c d] H1 H2 E. apply append_hyphen_inj in E as [? ?]; cbn in *; subst; auto.
  - apply (H _ H1).
  - apply (H _ H2).
Qed.
