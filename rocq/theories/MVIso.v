(** MVIso.v -- what a call can see and change of other accounts (C13, C21). *)

From Verif Require Export MVVoteEff MVAuth.

(** ** The listing of votes *)
Lemma mapMr_ok {A B} (f : A -> res B) (g : A -> B) l :
  (forall x, x ∈ l -> f x = Ok (g x)) -> mapMr f l = Ok (g <$> l).
Proof.
  induction l as [|x l IH]; intros H; [reflexivity|]. cbn [mapMr].
  rewrite (H x) by (left; reflexivity || constructor). cbn [mbind res_bind]. rewrite IH; [reflexivity|].
  intros y Hy. apply H. constructor. exact Hy.
Qed.

Lemma mapMr_fmap {A B C} (f : B -> res C) (g : A -> B) l :
  mapMr f (g <$> l) = mapMr (fun x => f (g x)) l.
Proof. induction l as [|x l IH]; [reflexivity|]. cbn. rewrite IH. reflexivity. Qed.

Lemma uget_in {V} (hp : heap V) h l k v : urep hp h l -> (k, v) ∈ l -> uget hp h k = Ok (Some v).
Proof.
  intros Hr Hin. apply elem_of_list_lookup in Hin as [i Hi]. unfold uget. eapply cget_in; [exact Hr|exact Hi].
Qed.

Lemma voter_votes_rep s v vid L :
  vrep (hp_vp s) (hp_vv s) vid (v_vp v) L -> voter_votes s v = Ok (triples (vabs L)).
Proof.
  intros Hr. pose proof (vr_outer _ _ _ _ _ Hr) as Ho. unfold voter_votes.
  rewrite (ukeys_rep _ _ _ Ho). cbn [mbind res_bind].
  assert (Ek : (outer L).*1 = fst <$> L).
  { unfold outer. rewrite <- list_fmap_compose. reflexivity. }
  rewrite Ek, mapMr_fmap.
  rewrite (mapMr_ok _ (fun e => map (fun ox : string * N => (e.1, ox.1, ox.2)) e.2.2)).
  - cbn [mbind res_bind]. f_equal. unfold triples, vabs. f_equal.
    rewrite <- (map_map (fun e : string * (hmap * list (string * N)) => (e.1, e.2.2))
      (fun e => map (fun ox : string * N => (e.1, ox.1, ox.2)) e.2)). reflexivity.
  - intros [a [h m]] Hin. cbn [fst snd].
    assert (Hin' : (a, h) ∈ outer L).
    { unfold outer. apply elem_of_list_fmap. exists (a, (h, m)). auto. }
    rewrite (uget_in _ _ _ _ _ Ho Hin'). cbn [mbind res_bind expect].
    apply elem_of_list_lookup in Hin as [i Hi]. destruct (vr_inner _ _ _ _ _ Hr _ _ _ _ Hi) as [_ Hm].
    rewrite (ukeys_rep _ _ _ Hm). cbn [mbind res_bind]. rewrite mapMr_fmap.
    apply (mapMr_ok _ (fun ox : string * N => (a, ox.1, ox.2))). intros [o x] Hox. cbn [fst snd].
    rewrite (uget_in _ _ _ _ _ Hm Hox). reflexivity.
Qed.

(** ** C21 *)
Section Iso.
Context (P : string -> string -> Prop) (HinjP : injP P).

Lemma info_frame s s' w vid now :
  Inv weak P s -> w <> vid -> om_get (voters s') w = om_get (voters s) w ->
  (forall q, q <> vid -> cell_at (hp_vp s') q = cell_at (hp_vp s) q) ->
  (forall q, (forall a, P vid a -> q <> vkey vid a) -> cell_at (hp_vv s') q = cell_at (hp_vv s) q) ->
  get_voter_info now s' w = get_voter_info now s w.
Proof.
  intros HI Hw Ev F1 F2. unfold get_voter_info. rewrite Ev.
  destruct (om_get (voters s) w) as [v|] eqn:E; [|reflexivity].
  destruct (i_v _ _ _ HI _ _ E) as (L & Hr & HL & _).
  assert (Hr' : vrep (hp_vp s') (hp_vv s') w (v_vp v) L).
  { eapply vrep_frame; [exact Hr|apply F1; exact Hw|].
    intros a Ha. apply F2. intros a2 Ha2 E2. destruct (HinjP _ _ _ _ (HL _ Ha) Ha2 E2). auto. }
  unfold voter_to_json. rewrite (voter_votes_rep _ _ _ _ Hr), (voter_votes_rep _ _ _ _ Hr'). reflexivity.
Qed.

(** frames of the voting calls *)
Definition vote_frame (s s' : state) (vid : string) : Prop :=
  (exists v', voters s' = om_set (voters s) vid v') /\
  (forall q, q <> vid -> cell_at (hp_vp s') q = cell_at (hp_vp s) q) /\
  (forall q, (forall a, P vid a -> q <> vkey vid a) -> cell_at (hp_vv s') q = cell_at (hp_vv s) q).

Lemma frame_vote s vid vp addr obj s' :
  Inv weak P s -> P vid addr -> internal_vote s vid vp addr obj = Ok s' -> vote_frame s s' vid.
Proof.
  intros HI Hp H. unfold internal_vote, get_voter_or_panic in H.
  apply bind_Ok in H as (v & E & H). apply expect_Ok in E.
  apply bind_Ok in H as ([s1 v0] & E0 & H). injection H as <-.
  pose proof (inv_get weak P s vid HI) as (L & Hr & HL & Hb & Hpw & _).
  rewrite (get_voter_Some _ _ _ E) in Hr.
  eapply create_vp_inv in E0; [|exact Hr].
  destruct E0 as (L' & Hr' & [F1 F2] & Hu & Hle & Hav & HL' & Hlp & _ & _ & _ & vs & hv & hp & Es).
  split; [|split].
  - exists v0. rewrite Es. reflexivity.
  - exact F1.
  - intros q Hq. apply F2. intros a Ha. apply Hq. destruct (HL' _ Ha) as [Ha'| ->]; auto.
Qed.

Lemma frame_unvote c s vid addr obj s' :
  Inv weak P s -> internal_unvote c s vid addr obj = Ok s' -> vote_frame s s' vid.
Proof.
  intros HI H. unfold internal_unvote, get_voter_or_panic in H.
  apply bind_Ok in H as (? & _ & H). apply bind_Ok in H as (v & Hv & H). apply expect_Ok in Hv.
  apply bind_Ok in H as ([s1 v0] & Hrm & H). injection H as <-.
  pose proof (inv_get weak P s vid HI) as (L & Hr & HL & Hb & Hpw & _).
  rewrite (get_voter_Some _ _ _ Hv) in Hr.
  eapply remove_vp_inv in Hrm; [|exact Hr].
  destruct Hrm as (L' & y & Hr' & [F1 F2] & Hu & Hav & HL' & Hlp & _ & _ & _ & vs & hv & hp & Es).
  split; [|split].
  - exists v0. rewrite Es. reflexivity.
  - exact F1.
  - intros q Hq. apply F2. intros a Ha. apply Hq. auto.
Qed.

Lemma frame_rebalance c s vp addr obj s' :
  Inv weak P s -> rebalance c s vp addr obj = Ok s' -> vote_frame s s' (c_pred c).
Proof.
  intros HI H. unfold rebalance, get_voter_or_panic, get_vote_position_for_address in H.
  apply bind_Ok in H as (u0 & _ & H). cbn zeta in H. apply bind_Ok in H as (v & Hv & H). apply expect_Ok in Hv.
  apply bind_Ok in H as (h & Hh & H). apply bind_Ok in Hh as (o & Ho & Hh). injection Hh as <-.
  apply bind_Ok in H as (oo & Hoo & H). apply bind_Ok in H as (x & Hx & H). apply expect_Ok in Hx. subst oo.
  apply bind_Ok in H as (u1 & Hne & H). apply require_Ok in Hne. nb.
  destruct (vp =? 0) eqn:Evp; [eapply frame_unvote; eauto|]. nb.
  set (vid := c_pred c) in *.
  apply bind_Ok in H as ([[s1 av] vts'] & Hmid & H).
  assert (exists vs, s1 = s <| votes := vs |>) as (vs & ->).
  { destruct (x <? vp) eqn:Elt; rinv; nb.
    - match goal with H : increase_total_votes _ _ _ _ = Ok _ |- _ => apply increase_total_inv in H as [vs ->] end. eauto.
    - match goal with H : decrease_total_votes _ _ _ _ = Ok _ |- _ => apply decrease_total_inv in H as [vs ->] end. eauto. }
  apply bind_Ok in H as ([hv h'] & Hiv & H). apply bind_Ok in H as ([hp vph] & Hip & H).
  injection H as <-. cbn in Hiv, Hip.
  pose proof (inv_get weak P s vid HI) as (L & Hr & HL & Hb & Hpw & _).
  rewrite (get_voter_Some _ _ _ Hv) in Hr.
  edestruct (set_vote_weak vid _ _ _ _ Hr) as (L' & Hr' & [F1 F2] & Hu & HL' & _ & _); try eassumption.
  assert (o <> None).
  { intros ->. cbn in Hoo. unfold uget, cget, vec_get, unew in Hoo. cbn in Hoo.
    destruct (ce_idx _ !! obj); [|discriminate]. discriminate. }
  split; [|split].
  - eexists. reflexivity.
  - exact F1.
  - intros q Hq. apply F2. intros a Ha. apply Hq. destruct (HL' _ Ha) as [Ha'|[? _]]; [auto|contradiction].
Qed.

Lemma frame_mirror c s ext l s' :
  Inv weak P s -> operator_mirror_lps c s ext l = Ok s' -> vote_frame s s' (pseudo_near_address ext).
Proof.
  intros HI H. pose proof (mirror_inv _ _ _ _ _ _ _ HI H)
    as (L & L' & vps & v1 & s1 & _ & _ & Hr & Hpw & HL & _ & Hlen & _ & (vs & hv & hp & Es) & Hr' & [F1 F2] & HL' & Hle & Hlt & _ & ->).
  split; [|split].
  - eexists. rewrite Es. reflexivity.
  - exact F1.
  - intros q Hq. apply F2. intros a Ha. apply Hq. auto.
Qed.

Lemma vote_op_frame x s s' e :
  (forall t, vote_target x = Some t -> P t.1 t.2) ->
  Inv weak P s -> is_vote_op x.2 = true -> exec x.1 s x.2 = Ok (s', e) ->
  vote_frame s s' (call_target x).
Proof.
  destruct x as [c o]. cbn [fst snd]. intros HT HI Ho H.
  destruct o; try discriminate; cbn [exec] in H; apply noeff_Ok in H as [H _].
  - unfold vote in H. rinv. eapply frame_vote; [exact HI|apply (HT _ eq_refl)|exact H].
  - eapply frame_rebalance; eauto.
  - unfold unvote in H. rinv. eapply frame_unvote; eauto.
  - eapply frame_mirror; eauto.
  - unfold vote_delegated, verify_delegate in H. rinv. eapply frame_vote; [exact HI|apply (HT _ eq_refl)|exact H].
  - unfold unvote_delegated, verify_delegate in H. rinv. eapply frame_unvote; eauto.
Qed.

Lemma vchg_target c s o s' e vid v v' : vchg c s o s' e vid v v' -> vid = call_target (c, o).
Proof.
  intros H. destruct H; try reflexivity; unfold call_target; cbn [fst snd].
  - match goal with H : bond_for _ _ _ _ _ _ |- _ => destruct H as [[-> ->]|(-> & -> & _)] end; reflexivity.
  - match goal with H : _ \/ _ |- _ => destruct H as [->| ->] end; reflexivity.
  - match goal with H : _ \/ _ |- _ => destruct H as [(? & ? & ->)| ->] end; reflexivity.
  - match goal with H : _ \/ _ |- _ =>
      destruct H as [(-> & [(? & ? & ? & ->)|[(? & ? & ? & ->)|(? & ? & ->)]])|(? & -> & [(? & ? & ? & ->)|(? & ? & ->)])] end;
      reflexivity.
Qed.

Lemma info_other x s s' e now w :
  (forall t, vote_target x = Some t -> P t.1 t.2) ->
  Inv weak P s -> exec x.1 s x.2 = Ok (s', e) -> w <> call_target x ->
  get_voter_info now s' w = get_voter_info now s w.
Proof.
  intros HT HI H Hw. destruct (is_vote_op x.2) eqn:Ho.
  - destruct (vote_op_frame x s s' e HT HI Ho H) as ((v' & Ev) & F1 & F2).
    eapply info_frame; eauto. rewrite Ev. apply om_get_set_ne. congruence.
  - apply exec_cases in H as [Hk H]. destruct (Hk Ho) as (_ & E1 & E2).
    assert (Hv : om_get (voters s') w = om_get (voters s) w).
    { destruct H as [(-> & _)|(vid & v' & Hst & Hc)]; [reflexivity|].
      apply vchg_target in Hc. rewrite <- surjective_pairing in Hc. subst vid. destruct Hst as [->|(-> & _)].
      - apply om_get_set_ne. congruence.
      - apply om_get_remove_ne; [apply (i_nd _ _ _ HI)|congruence]. }
    eapply (info_frame s s' w (call_target x)); eauto; rewrite ?E1, ?E2; auto.
Qed.
End Iso.

Lemma c21_isolation a s0 tr x s' e now w :
  mv_new a = Ok s0 -> collision_free (tr ++ [x]) ->
  exec x.1 (run s0 tr) x.2 = Ok (s', e) -> w <> call_target x ->
  get_voter_info now s' w = get_voter_info now (run s0 tr) w.
Proof.
  intros Hn Hc H Hw. eapply (info_other _ (targets_injP _ Hc)); [|apply inv_run_app with a; assumption|exact H|exact Hw].
  intros [v ad] Ht. apply (last_target tr x (v, ad) Ht).
Qed.

(** ** C13: the number of addresses with votes *)
Lemma uinsert_len {V} (hp : heap V) h k x hp' h' :
  uinsert hp h k x = Ok (hp', h') ->
  (h_len h' <= S (h_len h))%nat /\ (forall y, uget hp h k = Ok (Some y) -> h_len h' = h_len h).
Proof.
  unfold uinsert, cinsert, uget, cget. intros H. apply bind_Ok in H as ([ce n] & Hc & H). injection H as <- <-. cbn.
  destruct (ce_idx _ !! k) as [i|].
  - destruct (i <? h_len h)%nat; [|discriminate]. destruct (ce_vals _ !! i); [|discriminate].
    injection Hc as _ <-. auto.
  - injection Hc as _ <-. split; [lia|]. discriminate.
Qed.

Lemma uremove_len {V} (hp : heap V) h k hp' h' :
  uremove hp h k = Ok (hp', h') -> (h_len h' <= h_len h)%nat.
Proof.
  unfold uremove, cremove. intros H. apply bind_Ok in H as ([ce n] & Hc & H). injection H as <- <-. cbn.
  destruct (ce_idx _ !! k) as [i|]; [|injection Hc as _ <-; lia].
  apply bind_Ok in Hc as (? & _ & Hc). apply bind_Ok in Hc as (? & _ & Hc). apply bind_Ok in Hc as (? & _ & Hc).
  injection Hc as _ <-. lia.
Qed.

Lemma uget_unew {V} (hp : heap V) p k x : uget hp (unew p) k <> Ok (Some x).
Proof.
  unfold uget, cget, vec_get, unew. cbn. destruct (ce_idx _ !! k); discriminate.
Qed.

Lemma create_vp_len s vid v vp addr obj s' v' :
  internal_create_voting_position s vid v vp addr obj = Ok (s', v') ->
  N.of_nat (h_len (v_vp v')) <= max_vps s + 1.
Proof.
  intros H. unfold internal_create_voting_position in H.
  apply bind_Ok in H as (? & _ & H). apply bind_Ok in H as (? & Hm & H). apply require_Ok in Hm. nb.
  apply bind_Ok in H as (h & _ & H). apply bind_Ok in H as (o & _ & H). apply bind_Ok in H as (av & _ & H).
  apply bind_Ok in H as (vts & _ & H). apply bind_Ok in H as ([hv h'] & _ & H).
  apply bind_Ok in H as ([hp hh] & Hi & H). apply bind_Ok in H as (s1 & _ & H). injection H as _ <-.
  apply uinsert_len in Hi as [Hi _]. cbn. lia.
Qed.

Lemma remove_vp_len s vid v addr obj s' v' :
  internal_remove_voting_position s vid v addr obj = Ok (s', v') ->
  (h_len (v_vp v') <= h_len (v_vp v))%nat.
Proof.
  intros H. unfold internal_remove_voting_position, get_vote_position_for_address in H.
  apply bind_Ok in H as (h & Hh & H). apply bind_Ok in Hh as (o & Ho & Hh). injection Hh as <-.
  apply bind_Ok in H as (oo & Hoo & H). apply bind_Ok in H as (x & Hx & H). apply expect_Ok in Hx. subst oo.
  apply bind_Ok in H as (av & _ & H). apply bind_Ok in H as ([hv h'] & Hrv & H).
  apply bind_Ok in H as ([hp hh] & Hi & H). apply bind_Ok in H as (s1 & _ & H). injection H as _ <-. cbn.
  destruct o as [h|]; [|apply uget_unew in Hoo; contradiction].
  destruct (h_len h' =? 0)%nat.
  - apply uremove_len in Hi. exact Hi.
  - apply uinsert_len in Hi as [_ Hi]. rewrite (Hi _ Ho). lia.
Qed.

Lemma mirror_loop_len fuel : forall s vid v u new s' v' u',
  mirror_loop fuel s vid v u new = Ok (s', v', u') -> (h_len (v_vp v') <= h_len (v_vp v))%nat.
Proof.
  induction fuel as [|fuel IH]; intros s vid v u new s' v' u' H; simpl in H;
    destruct (new <? u) eqn:Elt; nb; try discriminate.
  - injection H as _ <- _. lia.
  - apply bind_Ok in H as (ok & _ & H). apply bind_Ok in H as (addr & _ & H).
    apply bind_Ok in H as (oh & Hoh & H). apply bind_Ok in H as (h & _ & H).
    apply bind_Ok in H as (oo & _ & H). apply bind_Ok in H as (obj & _ & H).
    apply bind_Ok in H as (ov & Hov & H). apply bind_Ok in H as (x & _ & H).
    apply bind_Ok in H as ([s1 v1] & Hrm & H). apply bind_Ok in H as (u1 & _ & H).
    apply remove_vp_len in Hrm. apply IH in H. lia.
  - injection H as _ <- _. lia.
Qed.

Lemma create_lps_vvp l : forall sv sv',
  foldM (fun sv lp => internal_create_locking_position sv.1 sv.2 lp.2 lp.1) l sv = Ok sv' ->
  v_vp sv'.2 = v_vp sv.2.
Proof.
  induction l as [|lp l IH]; intros sv sv' H; cbn in H; [injection H as <-; reflexivity|].
  apply bind_Ok in H as (sv1 & H1 & H). rewrite (IH _ _ H).
  unfold internal_create_locking_position in H1. rinv. reflexivity.
Qed.

Definition len_inv (s : state) : Prop :=
  forall vid, N.of_nat (h_len (v_vp (get_voter s vid))) <= max_vps s + 1.

Lemma len_store s s' vid v' :
  len_inv s -> max_vps s' = max_vps s -> voters s' = om_set (voters s) vid v' ->
  N.of_nat (h_len (v_vp v')) <= max_vps s + 1 -> len_inv s'.
Proof.
  intros HL Em Ev Hl w. rewrite Em. unfold get_voter. rewrite Ev.
  destruct (decide (vid = w)) as [<-|Hw]; [rewrite om_get_set_eq; exact Hl|].
  rewrite om_get_set_ne by exact Hw. apply HL.
Qed.

Lemma len_vote s vid vp addr obj s' :
  internal_vote s vid vp addr obj = Ok s' ->
  exists v', voters s' = om_set (voters s) vid v' /\ N.of_nat (h_len (v_vp v')) <= max_vps s + 1.
Proof.
  intros H. unfold internal_vote in H.
  apply bind_Ok in H as (v & Hv & H). apply bind_Ok in H as ([s1 v1] & Hc & H). injection H as <-.
  pose proof (create_vp_shape _ _ _ _ _ _ _ _ Hc) as (_ & _ & _ & vs & hv & hp & ->).
  apply create_vp_len in Hc. exists v1. auto.
Qed.

Lemma len_unvote c s vid addr obj s' :
  len_inv s -> internal_unvote c s vid addr obj = Ok s' ->
  exists v', voters s' = om_set (voters s) vid v' /\ N.of_nat (h_len (v_vp v')) <= max_vps s + 1.
Proof.
  intros HL H. unfold internal_unvote, get_voter_or_panic in H.
  apply bind_Ok in H as (? & _ & H). apply bind_Ok in H as (v & Hv & H). apply expect_Ok in Hv.
  apply bind_Ok in H as ([s1 v1] & Hc & H). injection H as <-.
  pose proof (remove_vp_shape _ _ _ _ _ _ _ Hc) as (_ & vs & hv & hp & ->).
  apply remove_vp_len in Hc. exists v1. split; [reflexivity|].
  specialize (HL vid). rewrite (get_voter_Some _ _ _ Hv) in HL. lia.
Qed.

Lemma len_rebalance c s vp addr obj s' :
  len_inv s -> rebalance c s vp addr obj = Ok s' ->
  exists v', voters s' = om_set (voters s) (c_pred c) v' /\ N.of_nat (h_len (v_vp v')) <= max_vps s + 1.
Proof.
  intros HL H. unfold rebalance, get_voter_or_panic, get_vote_position_for_address in H.
  apply bind_Ok in H as (u0 & _ & H). cbn zeta in H. apply bind_Ok in H as (v & Hv & H). apply expect_Ok in Hv.
  apply bind_Ok in H as (h & Hh & H). apply bind_Ok in Hh as (o & Ho & Hh). injection Hh as <-.
  apply bind_Ok in H as (oo & Hoo & H). apply bind_Ok in H as (x & Hx & H). apply expect_Ok in Hx. subst oo.
  apply bind_Ok in H as (u1 & _ & H). destruct (vp =? 0); [eapply len_unvote; eauto|].
  apply bind_Ok in H as ([[s1 av] vts'] & Hmid & H).
  assert (exists vs, s1 = s <| votes := vs |>) as (vs & ->).
  { destruct (x <? vp) eqn:Elt; rinv; nb.
    - match goal with H : increase_total_votes _ _ _ _ = Ok _ |- _ => apply increase_total_inv in H as [vs ->] end. eauto.
    - match goal with H : decrease_total_votes _ _ _ _ = Ok _ |- _ => apply decrease_total_inv in H as [vs ->] end. eauto. }
  apply bind_Ok in H as ([hv h'] & Hiv & H). apply bind_Ok in H as ([hp vph] & Hip & H).
  injection H as <-. cbn in Hip. eexists. split; [reflexivity|]. cbn.
  destruct o as [h|]; [|apply uget_unew in Hoo; contradiction].
  apply uinsert_len in Hip as [_ Hi]. rewrite (Hi _ Ho).
  specialize (HL (c_pred c)). rewrite (get_voter_Some _ _ _ Hv) in HL. exact HL.
Qed.

Lemma len_mirror c s ext l s' :
  len_inv s -> operator_mirror_lps c s ext l = Ok s' ->
  exists v', h_len (v_vp v') = h_len (v_vp (get_voter s' (pseudo_near_address ext))) /\
    N.of_nat (h_len (v_vp v')) <= max_vps s + 1.
Proof.
  intros HL H. unfold operator_mirror_lps in H. cbn zeta in H.
  apply bind_Ok in H as (? & _ & H). apply bind_Ok in H as (? & _ & H). apply bind_Ok in H as (u & _ & H).
  apply bind_Ok in H as (prev & _ & H). apply bind_Ok in H as (vps & _ & H). apply bind_Ok in H as (new & _ & H).
  apply bind_Ok in H as ([[s1 v1] u1] & Hl & H). apply bind_Ok in H as ([s2 v3] & Hf & H).
  apply bind_Ok in H as (av & _ & H). apply bind_Ok in H as (t & _ & H). injection H as <-.
  apply mirror_loop_len in Hl. apply create_lps_vvp in Hf. cbn [fst snd] in Hf.
  exists v3. specialize (HL (pseudo_near_address ext)).
  split; [unfold get_voter; cbn; rewrite om_get_set_eq; reflexivity|]. rewrite Hf. cbn. lia.
Qed.

Lemma len_exec x s s' e : NoDup (voters s).*1 -> len_inv s -> exec x.1 s x.2 = Ok (s', e) -> len_inv s'.
Proof.
  destruct x as [c o]. cbn [fst snd]. intros Hnd HL H.
  assert (Em : max_vps s' = max_vps s) by (apply exec_consts in H; unfold consts in H; congruence).
  pose proof (exec_cases _ _ _ _ _ H) as [_ Hcs].
  destruct (is_vote_op o) eqn:Ho.
  - assert (Hgo : forall vid, (exists v', voters s' = om_set (voters s) vid v' /\ N.of_nat (h_len (v_vp v')) <= max_vps s + 1) -> len_inv s').
    { intros vid (v' & Ev & Hv'). eapply len_store; eauto. }
    destruct o; try discriminate; cbn [exec] in H; apply noeff_Ok in H as [H _].
    + unfold vote in H. rinv. eapply Hgo, len_vote, H.
    + eapply Hgo, len_rebalance; eauto.
    + unfold unvote in H. rinv. eapply Hgo, len_unvote; eauto.
    + destruct (len_mirror _ _ _ _ _ HL H) as (v' & E & Hv').
      destruct Hcs as [(Ev & _)|(vid & v2 & Hst & Hc)].
      * intros w. rewrite Em. unfold get_voter. rewrite Ev. apply HL.
      * apply vchg_target in Hc. unfold call_target in Hc; cbn [fst snd] in Hc. subst vid.
        destruct Hst as [Ev|(Ev & _)].
        -- eapply len_store; eauto. unfold get_voter in E. rewrite Ev, om_get_set_eq in E. cbn in E. lia.
        -- intros w. rewrite Em. unfold get_voter. rewrite Ev.
           destruct (decide (pseudo_near_address ext = w)) as [<-|Hw]; [rewrite om_get_remove_eq by exact Hnd; cbn; lia|].
           rewrite om_get_remove_ne by auto. apply HL.
    + unfold vote_delegated, verify_delegate in H. rinv. eapply Hgo, len_vote, H.
    + unfold unvote_delegated, verify_delegate in H. rinv. eapply Hgo, len_unvote; eauto.
  - destruct Hcs as [(Ev & _)|(vid & v2 & Hst & Hc)].
    + intros w. rewrite Em. unfold get_voter. rewrite Ev. apply HL.
    + pose proof (vchg_vvp _ _ _ _ _ _ _ _ Hc Ho) as Evp.
      destruct Hst as [Ev|(Ev & _)].
      * eapply len_store; eauto. rewrite Evp. apply HL.
      * intros w. rewrite Em. unfold get_voter. rewrite Ev.
        destruct (decide (vid = w)) as [<-|Hw]; [rewrite om_get_remove_eq by exact Hnd; cbn; lia|].
        rewrite om_get_remove_ne by auto. apply HL.
Qed.

Lemma voters_nd_exec c s o s' e : NoDup (voters s).*1 -> exec c s o = Ok (s', e) -> NoDup (voters s').*1.
Proof.
  intros Hnd H. apply exec_cases in H as [_ [(-> & _)|(vid & v' & [->|(-> & _)] & _)]]; [exact Hnd| |].
  - apply om_set_NoDup. exact Hnd.
  - apply om_remove_NoDup. exact Hnd.
Qed.

Lemma mapMr_length {A B} (f : A -> res B) l l' : mapMr f l = Ok l' -> length l' = length l.
Proof.
  revert l'. induction l as [|x l IH]; intros l' H; cbn in H; [injection H as <-; reflexivity|].
  apply bind_Ok in H as (y & _ & H). apply bind_Ok in H as (l2 & H2 & H). injection H as <-.
  cbn. rewrite (IH _ H2). reflexivity.
Qed.

Lemma mapMr_In {A B} (f : A -> res B) l l' y : mapMr f l = Ok l' -> In y l' -> exists x, In x l /\ f x = Ok y.
Proof.
  revert l'. induction l as [|x l IH]; intros l' H Hin; cbn in H; [injection H as <-; destruct Hin|].
  apply bind_Ok in H as (y' & Hy & H). apply bind_Ok in H as (l2 & H2 & H). injection H as <-.
  destruct Hin as [<-|Hin]; [exists x; split; [left|]; auto|].
  destruct (IH _ H2 Hin) as (z & Hz & Hf). exists z. split; [right|]; auto.
Qed.

Lemma voter_votes_addrs s v l :
  voter_votes s v = Ok l ->
  exists ks, length ks = h_len (v_vp v) /\ forall t, In t l -> In t.1.1 ks.
Proof.
  unfold voter_votes. intros H. apply bind_Ok in H as (ks & Hk & H). apply bind_Ok in H as (ls & Hl & H).
  injection H as <-. exists ks. split.
  - unfold ukeys, vec_elems in Hk. apply mapMr_length in Hk. rewrite seq_length in Hk. exact Hk.
  - intros t Ht. apply in_concat in Ht as (m & Hm & Ht).
    destruct (mapMr_In _ _ _ _ Hl Hm) as (a & Ha & Hf).
    apply bind_Ok in Hf as (oh & _ & Hf). apply bind_Ok in Hf as (h & _ & Hf). apply bind_Ok in Hf as (os & _ & Hf).
    destruct (mapMr_In _ _ _ _ Hf Ht) as (ob & _ & Hg).
    apply bind_Ok in Hg as (? & _ & Hg). apply bind_Ok in Hg as (? & _ & Hg). injection Hg as <-. exact Ha.
Qed.

Lemma c13_addresses a s0 tr : mv_new a = Ok s0 -> addresses_bounded 1 (run s0 tr).
Proof.
  intros Hn.
  assert (HJ : NoDup (voters (run s0 tr)).*1 /\ len_inv (run s0 tr)).
  { apply (run_inv (fun s => NoDup (voters s).*1 /\ len_inv s)).
    - unfold mv_new in Hn. rinv. split; [constructor|]. intros w. cbn. lia.
    - intros x s s' e _ [H1 H2] He. split; [eapply voters_nd_exec; eauto|eapply len_exec; eauto]. }
  destruct HJ as [_ HL]. intros now vid j Hj. unfold get_voter_info in Hj.
  destruct (om_get (voters (run s0 tr)) vid) as [v|] eqn:E.
  - specialize (HL vid). rewrite (get_voter_Some _ _ _ E) in HL.
    unfold voter_to_json in Hj. apply bind_Ok in Hj as (l & Hl & Hj). injection Hj as <-.
    destruct (voter_votes_addrs _ _ _ Hl) as (ks & Hk & Hin). unfold voted_addresses. cbn [vj_votes].
    etrans; [|exact HL]. rewrite <- Hk. cut (length (remove_dups (map (fun t : string * string * N => t.1.1) l)) <= length ks)%nat; [lia|].
    apply NoDup_incl_length.
    + apply NoDup_ListNoDup, NoDup_remove_dups.
    + intros x Hx. apply elem_of_list_In in Hx. apply (proj1 (elem_of_remove_dups _ _)) in Hx. apply elem_of_list_In in Hx. apply in_map_iff in Hx as (t & <- & Ht). auto.
  - injection Hj as <-. cbn. lia.
Qed.
