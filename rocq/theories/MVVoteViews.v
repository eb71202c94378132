(** MVVoteViews.v -- the views that list votes agree with each other (C67). *)

From Coq Require Import Sorting.Sorted.
From Verif Require Import MVIso.

(** ** The sort *)
Section Sort.
Context {A : Type} (f : A -> N).

Lemma insert_by_perm x l : Permutation (insert_by f x l) (x :: l).
Proof.
  induction l as [|y l IH]; [reflexivity|]. cbn. destruct (f x <=? f y); [reflexivity|].
  rewrite IH. apply perm_swap.
Qed.

Lemma sort_by_perm l : Permutation (sort_by f l) l.
Proof. induction l as [|x l IH]; [reflexivity|]. cbn. rewrite insert_by_perm, IH. reflexivity. Qed.

Lemma insert_by_sorted x l :
  Sorted N.le (map f l) -> Sorted N.le (map f (insert_by f x l)).
Proof.
  induction l as [|y l IH]; intros H; [cbn; auto|]. cbn. destruct (N.leb_spec (f x) (f y)) as [Hl|Hl].
  - cbn. constructor; [exact H|]. constructor. exact Hl.
  - cbn. inversion H as [|? ? Hs Hh]; subst. constructor; [apply IH; exact Hs|].
    destruct l as [|z l]; cbn; [constructor; lia|]. destruct (f x <=? f z); cbn; constructor; [lia|].
    inversion Hh; subst. assumption.
Qed.

Lemma sort_by_sorted l : Sorted N.le (map f (sort_by f l)).
Proof. induction l as [|x l IH]; [constructor|]. cbn. apply insert_by_sorted. exact IH. Qed.
End Sort.

(** ** The listing of one account *)
Lemma by_voter_rep s vid w L :
  vrep (hp_vp s) (hp_vv s) w (v_vp (get_voter s vid)) L ->
  get_votes_by_voter s vid = Ok (sort_by (fun t => t.2) (triples (vabs L))).
Proof.
  intros Hr. pose proof (vr_outer _ _ _ _ _ Hr) as Ho. unfold get_votes_by_voter.
  rewrite (ukeys_rep _ _ _ Ho). cbn [mbind res_bind].
  assert (Ek : (outer L).*1 = fst <$> L).
  { unfold outer. rewrite <- list_fmap_compose. reflexivity. }
  rewrite Ek, mapMr_fmap.
  rewrite (mapMr_ok _ (fun e => map (fun ox : string * N => (e.1, ox.1, ox.2)) e.2.2)).
  - cbn [mbind res_bind]. f_equal. f_equal. unfold triples, vabs. f_equal.
    rewrite <- (map_map (fun e : string * (hmap * list (string * N)) => (e.1, e.2.2))
      (fun e => map (fun ox : string * N => (e.1, ox.1, ox.2)) e.2)). reflexivity.
  - intros [a [h m]] Hin. cbn [fst snd].
    assert (Hin' : (a, h) ∈ outer L).
    { unfold outer. apply elem_of_list_fmap. exists (a, (h, m)). auto. }
    rewrite (uget_in _ _ _ _ _ Ho Hin'). cbn [mbind res_bind expect].
    apply elem_of_list_lookup in Hin as [i Hi]. destruct (vr_inner _ _ _ _ _ Hr _ _ _ _ Hi) as [_ Hm].
    unfold uentries. rewrite (ukeys_rep _ _ _ Hm). unfold uvals.
    rewrite (crep_vals _ _ _ Hm). cbn [mbind res_bind].
    rewrite zip_fst_snd. reflexivity.
Qed.

Lemma triples_in L ad ob x :
  NoDup L.*1 -> (forall a h m, om_get L a = Some (h, m) -> NoDup m.*1) ->
  ((ad, ob, x) ∈ triples (vabs L) <-> exists h m, om_get L ad = Some (h, m) /\ om_get m ob = Some x).
Proof.
  intros Hnd Hm. unfold triples, vabs. rewrite elem_of_list_In, in_concat. split.
  - intros (l & Hl & Hx). apply in_map_iff in Hl as ((a & m) & <- & Hl).
    apply in_map_iff in Hx as ((o & y) & Heq & Hx). cbn in Heq, Hx. injection Heq as <- <- <-.
    apply in_map_iff in Hl as ((a' & h & m') & Heq & Hl). cbn in Heq. injection Heq as -> ->.
    assert (G : om_get L a = Some (h, m)) by (apply om_In_get; assumption).
    exists h, m. split; [exact G|]. apply om_In_get; [exact (Hm _ _ _ G)|exact Hx].
  - intros (h & m & G & G2). exists (map (fun ox : string * N => (ad, ox.1, ox.2)) m). split.
    + apply in_map_iff. exists (ad, m). split; [reflexivity|]. apply in_map_iff. exists (ad, (h, m)).
      split; [reflexivity|]. apply om_get_Some_In in G. exact G.
    + apply in_map_iff. exists (ob, x). split; [reflexivity|]. apply om_get_Some_In in G2. exact G2.
Qed.

Lemma triples_nd L :
  NoDup L.*1 -> (forall a h m, om_get L a = Some (h, m) -> NoDup m.*1) ->
  NoDup (map fst (triples (vabs L))).
Proof.
  unfold triples, vabs. induction L as [|[a [h m]] L IH]; intros Hnd Hm; [constructor|].
  cbn. rewrite map_app, map_map. cbn. inversion Hnd as [|? ? Hni Hnd']; subst.
  apply NoDup_app. split; [|split].
  - assert (E : map (fun x : string * N => (a, x.1)) m = map (pair a) m.*1) by (rewrite map_map; reflexivity).
    rewrite E. apply (NoDup_fmap_2 (pair a)). apply (Hm a h). cbn. rewrite decide_True by reflexivity. reflexivity.
  - intros [a' o'] H1 H2. apply elem_of_list_In, in_map_iff in H1 as (? & H1 & _). injection H1 as <- <-.
    apply elem_of_list_In, in_map_iff in H2 as (((a2 & o2) & x2) & H2 & H3). cbn in H2. injection H2 as -> ->.
    apply in_concat in H3 as (l & Hl & H3). apply in_map_iff in Hl as ((a3 & m3) & <- & Hl).
    apply in_map_iff in H3 as (? & H3 & _). cbn in H3. injection H3 as -> _ _.
    apply Hni. apply in_map_iff in Hl as ((a4 & h4 & m4) & Heq & Hl). cbn in Heq. injection Heq as -> ->.
    apply elem_of_list_fmap. exists (a, (h4, m3)). split; [reflexivity|]. apply elem_of_list_In. exact Hl.
  - apply IH; [exact Hnd'|]. intros b hb mb G. apply (Hm b hb). cbn. rewrite decide_False; [exact G|].
    intros ->. apply Hni. eapply om_get_Some_key. exact G.
Qed.

Lemma triples_sum L : sum_by (fun t => t.2) (triples (vabs L)) = used L.
Proof.
  unfold triples, vabs. induction L as [|[a [h m]] L IH]; [reflexivity|]. cbn.
  rewrite sum_by_app, IH. unfold used. rewrite sum_by_cons. f_equal. unfold mpow, sum_by. rewrite map_map. reflexivity.
Qed.

Lemma vrep_inner_nd hp hv vid h L :
  vrep hp hv vid h L -> forall a hh m, om_get L a = Some (hh, m) -> NoDup m.*1.
Proof.
  intros Hr a hh m G. destruct (vrep_get _ _ _ _ _ _ _ _ Hr G) as [_ Hc]. eapply crep_NoDup. exact Hc.
Qed.

Lemma c67_voter a s0 tr vid :
  mv_new a = Ok s0 -> collision_free tr ->
  let s := run s0 tr in
  exists l, get_votes_by_voter s vid = Ok l /\ Sorted N.le (map snd l) /\ NoDup (map fst l) /\
    get_used_voting_power s vid = Ok (sum_by snd l) /\
    (forall now, exists j, get_voter_info now s vid = Ok j /\ Permutation l (vj_votes j)) /\
    (no_zero_votes tr -> forall ad ob x,
       In (ad, ob, x) l <-> get_votes_for_object s vid ad ob = Ok x /\ 0 < x).
Proof.
  intros H0 Hc s. pose proof (inv_run a s0 tr H0 Hc) as HI. fold s in HI.
  destruct (inv_get _ _ s vid HI) as (L & Hr & _ & _ & Hpw & Hpt). pose proof (i_bnd _ _ _ HI) as Hbnd.
  pose proof (by_voter_rep _ _ _ _ Hr) as E. eexists. split; [exact E|].
  pose proof (vrep_NoDup _ _ _ _ _ Hr) as Hnd. pose proof (vrep_inner_nd _ _ _ _ _ Hr) as Hndi.
  pose proof (sort_by_perm (fun t : string * string * N => t.2) (triples (vabs L))) as Hp.
  split; [apply (sort_by_sorted (fun t : string * string * N => t.2))|].
  split. { rewrite Hp. apply triples_nd; assumption. }
  split. { rewrite (sum_by_perm snd _ _ Hp), triples_sum. unfold get_used_voting_power. apply (sum_used_rep _ _ _ _ Hr). lia. }
  split.
  { intros now. unfold get_voter_info. unfold get_voter in Hr. destruct (om_get (voters s) vid) as [v|].
    - cbn in Hr. unfold voter_to_json. rewrite (voter_votes_rep _ _ _ _ Hr). eexists. split; [reflexivity|]. exact Hp.
    - eexists. split; [reflexivity|]. cbn. cbn in Hr. pose proof (vr_outer _ _ _ _ _ Hr) as [Hlen _]. cbn in Hlen.
      unfold outer in Hlen. rewrite fmap_length in Hlen. destruct L; [|discriminate]. exact Hp. }
  intros Hz ad ob x. pose proof (sinv_run a s0 tr H0 Hc Hz) as HS. fold s in HS.
  destruct (si_ex _ _ HS vid) as [L' HX]. pose proof (ve_rep _ _ _ _ _ _ HX) as Hr'.
  pose proof (by_voter_rep _ _ _ _ Hr') as E'. rewrite E in E'. injection E' as E'. rewrite E'.
  rewrite <- elem_of_list_In, (sort_by_perm _ (triples (vabs L'))).
  rewrite triples_in; [|exact (vrep_NoDup _ _ _ _ _ Hr')|exact (vrep_inner_nd _ _ _ _ _ Hr')].
  rewrite (get_votes_exact _ _ _ _ _ _ HX). unfold lvotes. split.
  - intros (h & m & G & G2). rewrite G, G2. split; [reflexivity|].
    destruct (ve_in _ _ _ _ _ _ HX _ _ _ G) as (_ & _ & Hpos). eapply Hpos. exact G2.
  - intros [G Hx]. destruct (om_get L' ad) as [[h m]|]; cbn in G; [|injection G as <-; lia].
    destruct (om_get m ob) as [y|] eqn:G2; cbn in G; injection G as <-; [|lia]. eauto.
Qed.

(** ** The tallies of one address *)
Inductive vsteps (z : Prop) : state -> state -> Prop :=
| vs_keep s s' : votes s' = votes s -> vsteps z s s'
| vs_inc s s1 s2 s' vp a o :
    vsteps z s s1 -> (vp = 0 -> z) -> increase_total_votes s1 vp a o = Ok s2 -> votes s' = votes s2 -> vsteps z s s'
| vs_dec s s1 s2 s' vp a o :
    vsteps z s s1 -> decrease_total_votes s1 vp a o = Ok s2 -> votes s' = votes s2 -> vsteps z s s'.

Lemma vsteps_votes z s s1 s' : vsteps z s s1 -> votes s' = votes s1 -> vsteps z s s'.
Proof.
  intros H E. destruct H; [apply vs_keep; congruence|eapply vs_inc; [eassumption..|congruence]|eapply vs_dec; [eassumption..|congruence]].
Qed.
Lemma vsteps_trans z s s1 s' : vsteps z s s1 -> vsteps z s1 s' -> vsteps z s s'.
Proof.
  intros H1 H2. revert H1. induction H2; intros G.
  - eapply vsteps_votes; eauto.
  - eapply vs_inc; [apply IHvsteps; exact G|eassumption..].
  - eapply vs_dec; [apply IHvsteps; exact G|eassumption..].
Qed.

Lemma create_vsteps (z : Prop) s vid v vp addr obj s' v' :
  internal_create_voting_position s vid v vp addr obj = Ok (s', v') -> (vp = 0 -> z) -> vsteps z s s'.
Proof.
  unfold internal_create_voting_position. intros H Hz. rinv.
  eapply vs_inc; [apply vs_keep|exact Hz|eassumption|reflexivity]. reflexivity.
Qed.
Lemma remove_vsteps z s vid v addr obj s' v' :
  internal_remove_voting_position s vid v addr obj = Ok (s', v') -> vsteps z s s'.
Proof.
  unfold internal_remove_voting_position. intros H. rinv.
  eapply vs_dec; [apply vs_keep|eassumption|reflexivity]. reflexivity.
Qed.
Lemma vote_vsteps (z : Prop) s vid vp addr obj s' :
  internal_vote s vid vp addr obj = Ok s' -> (vp = 0 -> z) -> vsteps z s s'.
Proof.
  unfold internal_vote. intros H Hz. rinv. eapply vsteps_votes; [eapply create_vsteps; eassumption|reflexivity].
Qed.
Lemma unvote_vsteps z c s vid addr obj s' :
  internal_unvote c s vid addr obj = Ok s' -> vsteps z s s'.
Proof.
  unfold internal_unvote. intros H. rinv. eapply vsteps_votes; [eapply remove_vsteps; eassumption|reflexivity].
Qed.
Lemma mirror_vsteps z fuel : forall s vid v u n s' v' u',
  mirror_loop fuel s vid v u n = Ok (s', v', u') -> vsteps z s s'.
Proof.
  induction fuel as [|fuel IH]; intros s vid v u n s' v' u' H; cbn [mirror_loop] in H; destruct (n <? u); try discriminate;
    try (injection H as <- _ _; apply vs_keep; reflexivity).
  rinv. eapply vsteps_trans; [eapply remove_vsteps; eassumption|]. eapply IH. eassumption.
Qed.
Lemma create_lps_votes l : forall s v s' v',
  foldM (fun (sv : state * voter) (lp : N * N) => internal_create_locking_position sv.1 sv.2 lp.2 lp.1) l (s, v) = Ok (s', v') ->
  votes s' = votes s.
Proof.
  intros s v s' v' H.
  eapply (foldM_inv (fun sv : state * voter => votes sv.1 = votes s)) in H; [exact H| |reflexivity].
  intros [s1 v1] lp [s2 v2] _ H1 H2. cbn in *. unfold internal_create_locking_position in H2. rinv. exact H1.
Qed.

Definition zero_vote (o : op) : Prop :=
  match o with Vote p _ _ | VoteDelegated _ p _ _ => p = 0 | _ => False end.

Lemma exec_vsteps c s o s' e : exec c s o = Ok (s', e) -> vsteps (zero_vote o) s s'.
Proof.
  intros H. destruct (is_vote_op o) eqn:Eo.
  2: { apply exec_cases in H as [Hk _]. apply vs_keep. apply Hk. exact Eo. }
  destruct o; try discriminate Eo; cbn [exec] in H; apply noeff_Ok in H as [H _]; cbn [zero_vote].
  - unfold vote in H. rinv. eapply vote_vsteps; [eassumption|auto].
  - unfold rebalance in H. rinv.
    match type of H with (if ?b then _ else _) = _ => destruct b end; [eapply unvote_vsteps; eassumption|]. rinv.
    match goal with E : (if ?b then _ else _) = _ |- _ => destruct b eqn:Eb end; rinv; nb;
      [eapply vs_inc; [apply vs_keep; reflexivity| |eassumption|reflexivity]; lia
      |eapply vs_dec; [apply vs_keep; reflexivity|eassumption|reflexivity]].
  - unfold unvote in H. rinv. eapply unvote_vsteps; eassumption.
  - unfold operator_mirror_lps in H. rinv.
    match goal with E : mirror_loop _ _ _ _ _ _ = _ |- _ => eapply mirror_vsteps in E end.
    match goal with E : foldM _ _ _ = _ |- _ => apply create_lps_votes in E end.
    eapply vsteps_votes; [eassumption|]. cbn. congruence.
  - unfold vote_delegated in H. rinv. eapply vote_vsteps; [eassumption|auto].
  - unfold unvote_delegated in H. rinv. eapply unvote_vsteps; eassumption.
Qed.

Definition tallies_positive (s : state) : Prop := forall a o x, om_get (tm s a) o = Some x -> 0 < x.

Lemma vsteps_nd z s s' : vsteps z s s' -> votes_nd s -> votes_nd s'.
Proof.
  intros H Hn. induction H as [s s' E|s s1 s2 s' vp a o _ IH _ Hi E|s s1 s2 s' vp a o _ IH Hi E].
  - unfold votes_nd in *. rewrite E. exact Hn.
  - apply increase_exact in Hi as [Hi _]; [|auto]. unfold votes_nd in *. rewrite E. exact Hi.
  - apply decrease_exact in Hi as [Hi _]; [|auto]. unfold votes_nd in *. rewrite E. exact Hi.
Qed.

Lemma tm_inc s vp a o s' b :
  increase_total_votes s vp a o = Ok s' ->
  tm s' b = if decide (b = a) then om_set (tm s a) o (default 0 (om_get (tm s a) o) + vp) else tm s b.
Proof.
  unfold increase_total_votes. intros H. rinv. unfold tm. cbn. case_decide as Hd.
  - subst. rewrite om_get_set_eq. reflexivity.
  - rewrite om_get_set_ne by congruence. reflexivity.
Qed.
Lemma tm_dec s vp a o s' b :
  votes_nd s -> decrease_total_votes s vp a o = Ok s' ->
  exists x, tm s' b = if decide (b = a) then (if x =? 0 then om_remove (tm s a) o else om_set (tm s a) o x) else tm s b.
Proof.
  intros Hnd. unfold decrease_total_votes. intros H. fold (tm s a) in H.
  apply bind_Ok in H as (y & Hy & H). apply bind_Ok in H as (u0 & _ & H). apply bind_Ok in H as (x0 & _ & H).
  exists x0. injection H as <-.
  set (m := if x0 =? 0 then om_remove (tm s a) o else om_set (tm s a) o x0).
  destruct (tput_spec s a m Hnd) as (_ & H2 & H3).
  { unfold m. destruct (x0 =? 0); [apply om_remove_NoDup|apply om_set_NoDup]; apply tm_nd, Hnd. }
  change (tm (s <| votes := tput (votes s) a m |>) b = if decide (b = a) then m else tm s b).
  case_decide as Hd; [subst; exact H2|apply H3; exact Hd].
Qed.

Lemma vsteps_pos (z : Prop) s s' : vsteps z s s' -> ~ z -> votes_nd s -> tallies_positive s -> tallies_positive s'.
Proof.
  intros H Hz Hn Hp. induction H as [s s' E|s s1 s2 s' vp a o Hs IH Hv Hi E|s s1 s2 s' vp a o Hs IH Hi E].
  - intros a o x. unfold tm. rewrite E. apply Hp.
  - intros b q x Hg. assert (Et : tm s' b = tm s2 b) by (unfold tm; rewrite E; reflexivity).
    rewrite Et, (tm_inc _ _ _ _ _ b Hi) in Hg. case_decide as Hd; [|eapply IH; eauto].
    destruct (decide (o = q)) as [->|Hq].
    + rewrite om_get_set_eq in Hg. injection Hg as <-. assert (vp <> 0) by (intros ->; apply Hz; auto). lia.
    + rewrite om_get_set_ne in Hg by exact Hq. eapply IH; eauto.
  - intros b q x Hg. assert (Et : tm s' b = tm s2 b) by (unfold tm; rewrite E; reflexivity).
    pose proof (vsteps_nd _ _ _ Hs Hn) as Hn1.
    destruct (tm_dec _ _ _ _ _ b Hn1 Hi) as [y Ey].
    rewrite Et, Ey in Hg. case_decide as Hd; [|eapply IH; eauto].
    destruct (N.eqb_spec y 0) as [Hy|Hy]; (destruct (decide (o = q)) as [->|Hq]).
    + rewrite om_get_remove_eq in Hg by (apply tm_nd; exact Hn1). discriminate.
    + rewrite om_get_remove_ne in Hg; [eapply IH; eauto|apply tm_nd; exact Hn1|exact Hq].
    + rewrite om_get_set_eq in Hg. injection Hg as <-. lia.
    + rewrite om_get_set_ne in Hg by exact Hq. eapply IH; eauto.
Qed.

Lemma votes_nd_run a s0 tr : mv_new a = Ok s0 -> votes_nd (run s0 tr).
Proof.
  intros H0. apply (run_inv votes_nd).
  - unfold mv_new in H0. rinv. split; [constructor|]. intros b m Hm. discriminate.
  - intros x s s' e _ HI He. eapply vsteps_nd; [eapply exec_vsteps; exact He|exact HI].
Qed.

Lemma tallies_positive_run a s0 tr : mv_new a = Ok s0 -> no_zero_votes tr -> tallies_positive (run s0 tr).
Proof.
  intros H0 Hz.
  assert (H : votes_nd (run s0 tr) /\ tallies_positive (run s0 tr)); [|apply H].
  apply (run_inv (fun s => votes_nd s /\ tallies_positive s)).
  - split; [exact (votes_nd_run a s0 [] H0)|]. unfold mv_new in H0. rinv. intros b o y Hg. discriminate.
  - intros x s s' e Hin [HI Hp] He. apply exec_vsteps in He. split; [eapply vsteps_nd; eauto|].
    eapply vsteps_pos; eauto. unfold no_zero_votes in Hz. rewrite List.Forall_forall in Hz. specialize (Hz x Hin).
    unfold zero_vote. destruct x.2; auto.
Qed.

Lemma c67_app a s0 tr addr :
  mv_new a = Ok s0 ->
  let s := run s0 tr in
  let l := get_votes_by_app s addr in
  NoDup l.*1 /\
  (forall o x, In (o, x) l -> get_total_votes s addr o = x) /\
  (forall o, 0 < get_total_votes s addr o -> In (o, get_total_votes s addr o) l) /\
  (no_zero_votes tr -> forall o x, In (o, x) l -> 0 < x) /\
  Permutation (get_votes_by_contract s addr) (map (fun ox => (addr, ox.1, ox.2)) l) /\
  Sorted N.le (map snd (get_votes_by_contract s addr)).
Proof.
  intros H0 s l. pose proof (votes_nd_run a s0 tr H0) as Hn. fold s in Hn.
  change (get_votes_by_app s addr) with (tm s addr) in l.
  pose proof (tm_nd s addr Hn) as Hl. split; [exact Hl|].
  split. { intros o x Hin. rewrite tm_total. apply om_In_get in Hin; [|exact Hl]. unfold l in Hin. rewrite Hin. reflexivity. }
  split. { intros o Hp. rewrite tm_total in *. destruct (om_get (tm s addr) o) eqn:E; cbn in *; [|lia]. apply om_get_Some_In. exact E. }
  split. { intros Hz o x Hin. eapply (tallies_positive_run a s0 tr H0 Hz). apply om_In_get; [exact Hl|exact Hin]. }
  split; [apply sort_by_perm|apply (sort_by_sorted (fun t : string * string * N => t.2))].
Qed.
