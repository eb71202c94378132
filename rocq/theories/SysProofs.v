(** SysProofs.v -- C92. *)

From Verif Require Export SysSpec.
From Verif Require Import GovProofs WorldCover.
Import World.

(** ** Projections *)
Definition wev_of (e : yev) : list wev := match e with YWorld e => [e] | _ => [] end.
Definition wevs (tr : list yev) : list wev := flat_map wev_of tr.
Definition gev_of (y : system) (e : yev) : list gev :=
  match e with
  | YWorld e => map GVote (heard_at (y_world y) e)
  | YCall c o => [GCall c o]
  | YQuery i ts f alt => [GQuery i ts f alt]
  | YBack i ts => [GBack i ts]
  end.
Fixpoint gevs (y : system) (tr : list yev) : list gev :=
  match tr with [] => [] | e :: r => gev_of y e ++ gevs (ystep y e) r end.

Lemma yrun_app y t1 t2 : yrun y (t1 ++ t2) = yrun (yrun y t1) t2.
Proof. apply fold_left_app. Qed.
Lemma ystep_world y e : y_world (ystep y e) = wrun (y_world y) (wev_of e).
Proof. destruct e; reflexivity. Qed.
Lemma yrun_world tr : forall y, y_world (yrun y tr) = wrun (y_world y) (wevs tr).
Proof.
  induction tr as [|e tr IH]; intros y; [reflexivity|]. cbn [yrun fold_left]. fold (yrun (ystep y e) tr).
  rewrite IH, ystep_world. unfold wevs. cbn [flat_map]. unfold wrun. rewrite fold_left_app. reflexivity.
Qed.
Lemma grun_votes l : forall g, grun g (map GVote l) = mkGov (run (g_mv g) l) (g_m g) (g_pend g).
Proof.
  induction l as [|x l IH]; intros g; [destruct g; reflexivity|]. cbn [map grun fold_left]. fold (grun (gstep g (GVote x)) (map GVote l)).
  rewrite IH. reflexivity.
Qed.
Lemma gov_eta g : mkGov (g_mv g) (g_m g) (g_pend g) = g. Proof. destruct g; reflexivity. Qed.
Lemma gstep_same g e : mv_of e = [] -> g_mv (gstep g e) = g_mv g.
Proof. intros E. rewrite gstep_mv, E. reflexivity. Qed.
Lemma ystep_gov y e : gov_of (ystep y e) = grun (gov_of y) (gev_of y e).
Proof.
  destruct e as [e|c o|i ts f alt|i ts]; cbn [gev_of].
  - rewrite grun_votes. unfold gov_of. cbn [ystep y_world y_board y_asks g_mv g_m g_pend]. rewrite heard_step. reflexivity.
  - cbn [grun fold_left]. rewrite <- (gov_eta (gstep _ _)), gstep_same by reflexivity. reflexivity.
  - cbn [grun fold_left]. rewrite <- (gov_eta (gstep _ _)), gstep_same by reflexivity. reflexivity.
  - cbn [grun fold_left]. rewrite <- (gov_eta (gstep _ _)), gstep_same by reflexivity. reflexivity.
Qed.
Lemma yrun_gov tr : forall y, gov_of (yrun y tr) = grun (gov_of y) (gevs y tr).
Proof.
  induction tr as [|e tr IH]; intros y; [reflexivity|]. cbn [yrun fold_left gevs]. fold (yrun (ystep y e) tr).
  rewrite IH, ystep_gov, grun_app. reflexivity.
Qed.
Lemma gevs_app t1 t2 : forall y, gevs y (t1 ++ t2) = gevs y t1 ++ gevs (yrun y t1) t2.
Proof. induction t1 as [|e t1 IH]; intros y; [reflexivity|]. cbn [app gevs]. rewrite IH, <- app_assoc. reflexivity. Qed.
Lemma heard_ts w e x : In x (heard_at w e) -> c_ts x.1 = yev_ts (YWorld e).
Proof.
  destruct e as [z|k z|i c f ans]; cbn [heard_at yev_ts].
  - destruct (is_contract _ _); intros []; [subst; reflexivity|destruct H].
  - intros [].
  - destruct (w_pend w !! i) as [[]|]; try intros [];
      repeat match goal with |- In _ (if ?b then _ else _) -> _ => destruct b end; try intros []; subst; try reflexivity; destruct H.
Qed.
Lemma gev_ts_of y e x : In x (gev_of y e) -> gev_ts x = yev_ts e.
Proof.
  destruct e; cbn [gev_of]; try (intros [<-|[]]; reflexivity).
  intros H. apply in_map_iff in H as (z & <- & H). cbn [gev_ts]. eapply heard_ts. exact H.
Qed.
Lemma gevs_in tr : forall y x, In x (gevs y tr) -> exists t1 e t2, tr = t1 ++ e :: t2 /\ In x (gev_of (yrun y t1) e).
Proof.
  induction tr as [|e tr IH]; intros y x H; [destruct H|]. cbn [gevs] in H. apply in_app_iff in H as [H|H].
  - exists [], e, tr. split; [reflexivity|exact H].
  - destruct (IH _ _ H) as (t1 & e' & t2 & -> & H'). exists (e :: t1), e', t2. split; [reflexivity|exact H'].
Qed.
Lemma gev_len y e : (length (gev_of y e) <= 1)%nat.
Proof.
  destruct e; cbn [gev_of length]; try lia. rewrite map_length. pose proof (heard_len [e] (y_world y)) as H. cbn [heard length] in H.
  rewrite app_length in H. cbn in H. lia.
Qed.
Lemma gevs_timed tr : forall y, ytimed tr -> gtimed (gevs y tr).
Proof.
  unfold ytimed, gtimed. induction tr as [|e tr IH]; intros y H; [constructor|]. cbn [map gevs] in *.
  apply Sorted_StronglySorted in H; [|intros ? ? ?; lia]. apply StronglySorted_inv in H as [H HF].
  apply StronglySorted_Sorted in H. specialize (IH (ystep y e) H). rewrite map_app.
  pose proof (gev_len y e) as Hl. pose proof (gev_ts_of y e) as Hts. destruct (gev_of y e) as [|x [|? ?]]; cbn [length] in Hl; [exact IH| |lia].
  cbn [map app]. rewrite (Hts x (or_introl eq_refl)). constructor; [exact IH|].
  destruct (map gev_ts (gevs (ystep y e) tr)) as [|t l] eqn:E; constructor.
  assert (Hin : In t (map gev_ts (gevs (ystep y e) tr))) by (rewrite E; left; reflexivity).
  apply in_map_iff in Hin as (z & <- & Hz). apply gevs_in in Hz as (t1 & e' & t2 & -> & Hz). rewrite (gev_ts_of _ _ _ Hz).
  rewrite List.Forall_forall in HF. apply HF, in_map, in_app_iff. right. left. reflexivity.
Qed.

(** ** The hypotheses, seen from Gov.v and World.v *)
Lemma tame_calm D y0 tr : Forall (tame D y0) tr -> Forall (calm Mp (y_world y0)) (wevs tr).
Proof.
  induction 1 as [|e tr He _ IH]; [constructor|]. unfold wevs. cbn [flat_map]. apply Forall_app. split; [|exact IH].
  destruct e as [e| | |]; cbn [wev_of]; constructor; [apply He|constructor].
Qed.
Lemma heard_op w e c o : In (c, o) (heard_at w e) ->
  (exists z, e = EMv z /\ z = (c, o)) \/ match o with FtOnTransfer _ _ _ | AfterMp _ _ _ | AfterSt _ _ _ => True | _ => False end.
Proof.
  destruct e as [z|k z|i cc f ans]; cbn [heard_at].
  - destruct (is_contract _ _); intros []; [subst; eauto|destruct H].
  - intros [].
  - intros H. right. destruct (w_pend w !! i) as [[]|]; try destruct H;
      repeat match goal with H : In _ (if ?b then _ else _) |- _ => destruct b end; try destruct H;
      repeat match goal with H : (_, _) = (_, _) |- _ => injection H as <- <- | H : In _ [] |- _ => destruct H end; try exact I.
    destruct cb; exact I.
Qed.
Lemma deployed_linked D y0 tr : deployed y0 -> Forall (tame D y0) tr ->
  exists a b, linked a b (gov_of y0) (gevs y0 tr) /\ i_min_unbond a = min_unbond (w_mv (y_world y0)) /\ mv_new a = Ok (w_mv (y_world y0)).
Proof.
  intros (b & Hw & Hm & Hp & Hv) Ht. destruct Hw as (a & _ & _ & _ & _ & _ & _ & Ha & _). exists a, b.
  assert (Hs : self_id (w_mv (y_world y0)) = i_self a /\ i_min_unbond a = min_unbond (w_mv (y_world y0))).
  { clear -Ha. unfold mv_new in Ha. rinv. rewrite <- Ha. split; reflexivity. }
  split; [|split; [apply Hs|exact Ha]].
  exists (w_mv (y_world y0)), (y_board y0). split; [exact Ha|]. split; [exact Hm|]. split; [unfold gov_of; rewrite Hp; reflexivity|].
  split; [rewrite Hv; apply Hs|].
  apply List.Forall_forall. intros x Hx. apply gevs_in in Hx as (t1 & e & t2 & -> & Hx).
  rewrite List.Forall_forall in Ht. specialize (Ht e ltac:(apply in_app_iff; right; left; reflexivity)).
  destruct e as [e|c o|i ts f alt|i ts]; cbn [gev_of] in Hx.
  - apply in_map_iff in Hx as (z & <- & _). exact I.
  - destruct Hx as [<-|[]]. destruct o; try exact I. cbn [tame] in Ht. cbn [keeps_link]. rewrite <- (proj1 Hs). exact Ht.
  - destruct Hx as [<-|[]]. exact I.
  - destruct Hx as [<-|[]]. exact I.
Qed.
Lemma tame_periods D y0 tr : Forall (tame D y0) tr -> Forall (periods_at_least D) (gevs y0 tr) /\ (forall v, Forall (not_mirrored v) (gevs y0 tr)).
Proof.
  intros Ht. rewrite List.Forall_forall in Ht.
  assert (H : forall x, In x (gevs y0 tr) -> periods_at_least D x /\ forall v, not_mirrored v x).
  { intros x Hx. apply gevs_in in Hx as (t1 & e & t2 & -> & Hx).
    specialize (Ht e ltac:(apply in_app_iff; right; left; reflexivity)).
    destruct e as [e|c o|i ts f alt|i ts]; cbn [gev_of] in Hx; try (destruct Hx as [<-|[]]; split; [exact I|intros; exact I]).
    apply in_map_iff in Hx as ([c o] & <- & Hx). apply heard_op in Hx as [(z & -> & ->)|Ho].
    - cbn [tame calm no_import] in Ht. destruct Ht as [[_ Hi] Hm]. cbn [periods_at_least not_mirrored].
      destruct o; try (split; [exact I|intros; exact I]).
      + split; [exact Hm|intros; exact I].
      + discriminate Hi.
    - destruct o; try destruct Ho; split; try exact I; intros; exact I. }
  split; [|intros v]; apply List.Forall_forall; intros x Hx; apply (H x Hx).
Qed.
Lemma recent_gov D T id y0 tr : recent D T id tr ->
  Forall (fun x => gev_ts x / 1000000 <= T) (gevs y0 tr) /\
  (forall c vt memo, In (GCall c (VoteProposal id vt memo)) (gevs y0 tr) -> T < now_ms c + D * 86400000).
Proof.
  intros [H1 H2]. rewrite List.Forall_forall in H1. split.
  - apply List.Forall_forall. intros x Hx. apply gevs_in in Hx as (t1 & e & t2 & -> & Hx). rewrite (gev_ts_of _ _ _ Hx).
    apply H1, in_app_iff. right. left. reflexivity.
  - intros c vt memo Hx. apply gevs_in in Hx as (t1 & e & t2 & -> & Hx). apply (H2 c vt memo), in_app_iff. right. left.
    destruct e; cbn [gev_of] in Hx; try (destruct Hx as [Hx|[]]; injection Hx as -> ->; reflexivity); try (destruct Hx as [Hx|[]]; discriminate).
    apply in_map_iff in Hx as (z & E & _). discriminate E.
Qed.
Lemma mvs_votes l : mvs (map GVote l) = l.
Proof. induction l as [|x l IH]; [reflexivity|]. cbn [map mvs flat_map mv_of app]. fold (mvs (map GVote l)). rewrite IH. reflexivity. Qed.
Lemma mvs_gevs tr : forall y, mvs (gevs y tr) = heard (y_world y) (wevs tr).
Proof.
  induction tr as [|e tr IH]; intros y; [reflexivity|]. cbn [gevs]. rewrite mvs_app, IH, ystep_world. unfold wevs. cbn [flat_map].
  destruct e as [e| | |]; cbn [gev_of wev_of app]; try reflexivity. cbn [heard]. rewrite mvs_votes. reflexivity.
Qed.
Lemma wevs_len tr : (length (wevs tr) <= length tr)%nat.
Proof. induction tr as [|e tr IH]; [apply le_n|]. unfold wevs in *. cbn [flat_map]. rewrite app_length. destruct e; cbn [wev_of length]; lia. Qed.

(** ** Power and tokens of one account *)
Lemma power_amount a s0 tr v : mv_new a = Ok s0 -> N.of_nat (length tr) < 2 ^ 64 ->
  locked_power (run s0 tr) v <= 60 * 10 ^ 18 * locked_amount (run s0 tr) v.
Proof.
  intros H0 Hn. rewrite locked_power_eq, locked_amount_eq. exact (lvp_le _ (lean_run a s0 tr v H0 Hn)).
Qed.
Lemma power_amount_quiet a s0 tr v : mv_new a = Ok s0 -> N.of_nat (length tr) < 2 ^ 64 -> Forall quiet_bounds tr ->
  60 * locked_power (run s0 tr) v <= (max_unbond s0 + 1) * 10 ^ 18 * locked_amount (run s0 tr) v.
Proof.
  intros H0 Hn Hq. rewrite locked_power_eq, locked_amount_eq.
  assert (HF : Forall (fun p => 60 * lp_vp p <= (max_unbond s0 + 1) * 10 ^ 18 * lp_amount p) (v_lps (get_voter (run s0 tr) v))).
  { apply Forall_lookup_2. intros i p Hp. eapply drift_tight; [exact Hn| |].
    - exact (Forall_lookup_1 _ _ _ _ (proj2 (drift_run a s0 tr H0) v) Hp).
    - assert (Hg : get_locking_position 0 (run s0 tr) i v = Some (lp_to_json 0 i p)).
      { unfold get_locking_position. rewrite Hp. reflexivity. }
      pose proof (quiet_periods a s0 tr v i _ H0 Hq Hg) as [_ HB]. exact HB. }
  revert HF. generalize ((max_unbond s0 + 1) * 10 ^ 18) as K. intros K HF.
  unfold lvp. induction HF as [|p l Hp _ IH]; [rewrite !sum_by_nil; lia|]. rewrite !sum_by_cons, !N.mul_add_distr_l.
  unfold isl, is_locked in *. destruct (lp_unl p); lia.
Qed.

(** ** C92 *)
Section C92.
Context (y0 : system) (tr : list yev) (id T D : N).
Context (H0 : deployed y0) (Ht : Forall (tame D y0) tr) (Hs : ytimed tr) (HD : D <= min_unbond (w_mv (y_world y0)))
  (Hr : recent D T id tr) (Hn : N.of_nat (length tr) < 2 ^ 64).
Let y := yrun y0 tr.

Lemma moment v : exists t1, (length t1 <= length tr)%nat /\ (forall x, In x t1 -> In x (heard (y_world y0) (wevs tr))) /\
  power_cast y id v <= locked_power (run (w_mv (y_world y0)) t1) v /\
  (0 < power_cast y id v -> locked_amount (run (w_mv (y_world y0)) t1) v <= positions_amount (w_mv (y_world y)) v).
Proof.
  unfold power_cast. destruct (get_my_vote (y_board y) v id) as [[[v' u]|]|m] eqn:Ev;
    try (exists []; split; [cbn; lia|]; split; [intros ? []|]; split; [apply N.le_0_l|intros Hx; exfalso; lia]).
  assert (v' = v) as ->.
  { clear -Ev. unfold get_my_vote in Ev. destruct (internal_has_voted _ _ _); [|discriminate].
    apply bind_Ok in Ev as (? & _ & Ev). apply bind_Ok in Ev as (? & _ & Ev). congruence. }
  destruct (deployed_linked D y0 tr H0 Ht) as (a & b & HL & Em & Ha). destruct (tame_periods D y0 tr Ht) as [HP HM].
  destruct (recent_gov D T id y0 tr Hr) as [R1 R2].
  change (y_board y) with (g_m (gov_of y)) in Ev. unfold y in Ev. rewrite yrun_gov in Ev.
  destruct (backed a b (gov_of y0) (gevs y0 tr) id T D v u HL (gevs_timed _ _ Hs) R1 ltac:(rewrite Em; exact HD) HP R2 (HM v) Ev) as (t1 & t2 & E & Hp & Hle).
  assert (Ey : w_mv (y_world y) = run (w_mv (y_world y0)) (mvs (gevs y0 tr))).
  { change (w_mv (y_world y)) with (g_mv (gov_of y)). unfold y. rewrite yrun_gov, grun_mv. reflexivity. }
  rewrite !grun_mv in Hle. rewrite grun_mv in Hp. cbn [gov_of g_mv] in Hle, Hp. rewrite <- Ey in Hle.
  exists (mvs t1). assert (Ein : heard (y_world y0) (wevs tr) = mvs t1 ++ mvs t2) by (rewrite <- mvs_gevs, E; apply mvs_app).
  split.
  { pose proof (heard_len (wevs tr) (y_world y0)) as Hl. rewrite Ein, app_length in Hl. pose proof (wevs_len tr). lia. }
  split; [intros x Hx; rewrite Ein; apply in_app_iff; left; exact Hx|]. split; [lia|]. intros _. exact Hle.
Qed.
Lemma cast_tokens v : power_cast y id v <= 60 * 10 ^ 18 * positions_amount (w_mv (y_world y)) v /\
  (Forall in_bounds tr -> 60 * power_cast y id v <= (max_unbond (w_mv (y_world y0)) + 1) * 10 ^ 18 * positions_amount (w_mv (y_world y)) v).
Proof.
  destruct (moment v) as (t1 & Hl & Hin & Hp & Ha). destruct (N.eq_0_gt_0_cases (power_cast y id v)) as [E|E]; [rewrite E; split; [|intros _]; lia|].
  specialize (Ha E). destruct (deployed_linked D y0 tr H0 Ht) as (a & b & _ & _ & Hmv).
  assert (Hn1 : N.of_nat (length t1) < 2 ^ 64) by (eapply N.le_lt_trans; [apply of_nat_le; exact Hl|exact Hn]).
  split.
  - etransitivity; [exact Hp|]. etransitivity; [exact (power_amount a _ t1 v Hmv Hn1)|]. apply N.mul_le_mono_l. exact Ha.
  - intros Hb. assert (Hq : Forall quiet_bounds t1).
    { apply List.Forall_forall. intros [c o] Hx. apply Hin in Hx. rewrite <- mvs_gevs in Hx. apply in_mvs, gevs_in in Hx as (t & e & t' & -> & Hx).
      rewrite List.Forall_forall in Hb. specialize (Hb e ltac:(apply in_app_iff; right; left; reflexivity)).
      destruct e as [e| | |]; cbn [gev_of] in Hx; try (destruct Hx as [Hx|[]]; discriminate).
      apply in_map_iff in Hx as (z & Ez & Hx). injection Ez as ->. apply heard_op in Hx as [(z & -> & ->)|Ho]; [exact Hb|].
      destruct o; try destruct Ho; exact I. }
    etransitivity; [apply N.mul_le_mono_l; exact Hp|]. etransitivity; [exact (power_amount_quiet a _ t1 v Hmv Hn1 Hq)|]. apply N.mul_le_mono_l. exact Ha.
Qed.
Lemma c92_coalition vs :
  sum_by (power_cast y id) vs <= 60 * 10 ^ 18 * sum_by (positions_amount (w_mv (y_world y))) vs /\
  (Forall in_bounds tr -> 60 * sum_by (power_cast y id) vs <= (max_unbond (w_mv (y_world y0)) + 1) * 10 ^ 18 * sum_by (positions_amount (w_mv (y_world y))) vs).
Proof.
  split; [|intros Hb]; rewrite <- !sum_by_mul_l; apply sum_by_le; intros v _; destruct (cast_tokens v) as [H1 H2]; auto.
Qed.

Lemma reach_board : mreach (proj (gov_of y)) (mevs (gov_of y0) (gevs y0 tr)).
Proof.
  destruct (deployed_linked D y0 tr H0 Ht) as (a & b & HL & _ & _). unfold y. rewrite yrun_gov. eapply linked_reach. exact HL.
Qed.
Lemma recorded_sum : sum_by (fun j : vote_json => vt_power j.2) (listed (y_board y) id) =
  recorded (y_board y) id VFor + recorded (y_board y) id VAgainst + recorded (y_board y) id VAbstain.
Proof.
  unfold recorded. rewrite <- !sum_by_add. apply sum_by_ext. intros [v u] _. cbn [snd]. destruct (vt_type u); repeat case_decide; try congruence; lia.
Qed.
Lemma listed_cast : sum_by (fun j : vote_json => vt_power j.2) (listed (y_board y) id) = sum_by (power_cast y id) (listed (y_board y) id).*1.
Proof.
  pose proof (c40 _ _ reach_board) as (_ & Hin & _). change (w_m (proj (gov_of y))) with (y_board y) in Hin.
  change (sum_by (power_cast y id) (listed (y_board y) id).*1) with (sumN (map (power_cast y id) (map fst (listed (y_board y) id)))).
  rewrite map_map. apply sum_by_ext. intros [v u] Hv. cbn [fst snd]. unfold power_cast.
  rewrite (proj2 (Hin v id (v, u)) (conj Hv eq_refl)). reflexivity.
Qed.
Lemma positions_owed l : NoDup l -> sum_by (positions_amount (w_mv (y_world y))) l <= treasury y.
Proof.
  intros Hnd. pose proof H0 as (b & Hw & _). pose proof (w_solvent Mp _ _ Hw (tame_calm D y0 tr Ht)) as HS. cbv zeta in HS.
  rewrite <- yrun_world in HS. fold y in HS. unfold funds in HS. cbn [owed tok_of] in HS.
  transitivity (mp_owed (w_mv (y_world y))); [|unfold treasury; lia].
  unfold mp_owed. etransitivity; [|apply N.le_add_r].
  transitivity (sum_by (positions_amount (w_mv (y_world y))) (voter_ids (w_mv (y_world y)))).
  - apply sum_by_sub; [exact Hnd|]. intros v _ Hv. rewrite positions_amount_eq. unfold get_voter.
    destruct (om_get (voters (w_mv (y_world y))) v) as [x|] eqn:Ex; [|reflexivity].
    exfalso. apply Hv. apply om_get_Some_In in Ex. apply (in_map fst) in Ex. exact Ex.
  - apply sum_by_le. intros v _. lia.
Qed.
Lemma one_walong : one_at_a_time y0 tr -> walong no_double_vote (proj (gov_of y0)) (mevs (gov_of y0) (gevs y0 tr)).
Proof.
  clear H0 Ht Hs HD Hr Hn y. revert y0. induction tr as [|e t IH]; intros y1 H1; [exact I|].
  assert (Ht : one_at_a_time (ystep y1 e) t) by (intros t1 c i vt memo t2 E; apply (H1 (e :: t1) c i vt memo t2); rewrite E; reflexivity).
  specialize (IH _ Ht). cbn [gevs]. rewrite ystep_gov in IH.
  assert (Hm : forall l, walong no_double_vote (proj (grun (gov_of y1) (map GVote l))) (mevs (grun (gov_of y1) (map GVote l)) (gevs (ystep y1 e) t)) ->
    walong no_double_vote (proj (gov_of y1)) (mevs (gov_of y1) (map GVote l ++ gevs (ystep y1 e) t))).
  { generalize (gov_of y1) as g. intros g l. revert g. induction l as [|x l IHl]; intros g H; [exact H|]. cbn [map app mevs mev_of].
    change (proj g) with (proj (gstep g (GVote x))). apply IHl. exact H. }
  destruct e as [e|c o|i ts f alt|i ts]; cbn [gev_of] in *.
  - apply Hm. exact IH.
  - cbn [grun fold_left] in IH. cbn [app mevs mev_of walong]. split.
    + destruct o; try exact I. cbn [no_double_vote]. intros (p & vt' & memo' & Hp & Hk).
      apply (H1 [] c id0 vt memo t eq_refl). unfold proj in Hp. cbn [Mpip.w_pend gov_of g_pend] in Hp.
      apply in_map_iff in Hp as ([p' oa] & <- & Hp). exists p', oa, vt', memo'. split; assumption.
    + rewrite gstep_proj in IH. exact IH.
  - cbn [grun fold_left] in IH. cbn [app mevs mev_of]. rewrite gstep_proj in IH. exact IH.
  - cbn [grun fold_left] in IH. cbn [app mevs mev_of]. rewrite gstep_proj in IH. cbn [mev_of] in IH.
    destruct (g_pend (gov_of y1) !! i) as [[p [an|]]|]; cbn [walong]; try exact IH. split; [exact I|exact IH].
Qed.
Lemma votes_recorded : one_at_a_time y0 tr -> all_votes y id = sum_by (power_cast y id) (listed (y_board y) id).*1.
Proof.
  intros H1. rewrite <- listed_cast, recorded_sum. destruct H0 as (b & Hw & Hm & Hp & Hv). unfold all_votes.
  pose proof (one_walong H1) as Hal. assert (Ei : proj (gov_of y0) = winit (y_board y0)) by (unfold proj, gov_of; rewrite Hp; reflexivity).
  pose proof (fun t => c38_exact b (y_board y0) (mevs (gov_of y0) (gevs y0 tr)) Hm ltac:(rewrite <- Ei; exact Hal) id t) as HE.
  rewrite <- Ei, <- grun_proj, <- yrun_gov in HE. fold y in HE. change (w_m (proj (gov_of y))) with (y_board y) in HE.
  rewrite !HE. reflexivity.
Qed.
Lemma c92_treasury : one_at_a_time y0 tr ->
  all_votes y id <= 60 * 10 ^ 18 * treasury y /\
  (Forall in_bounds tr -> 60 * all_votes y id <= (max_unbond (w_mv (y_world y0)) + 1) * 10 ^ 18 * treasury y).
Proof.
  intros H1. rewrite (votes_recorded H1). pose proof (c40 _ _ reach_board) as (Hnd & _). specialize (Hnd id).
  change (w_m (proj (gov_of y))) with (y_board y) in Hnd. pose proof (positions_owed _ Hnd) as Hle.
  destruct (c92_coalition (listed (y_board y) id).*1) as [C1 C2]. split.
  - etransitivity; [exact C1|]. apply N.mul_le_mono_l. exact Hle.
  - intros Hb. etransitivity; [exact (C2 Hb)|]. apply N.mul_le_mono_l. exact Hle.
Qed.

(** where the quorum comes from *)
Lemma gevs_split t : forall y1 l1 x l2, gevs y1 t = l1 ++ x :: l2 -> exists t1 e t2, t = t1 ++ e :: t2 /\ gevs y1 t1 = l1 /\ gev_of (yrun y1 t1) e = [x].
Proof.
  clear. induction t as [|e t IH]; intros y1 l1 x l2 E; [destruct l1; discriminate E|]. cbn [gevs] in E.
  pose proof (gev_len y1 e) as Hl. destruct (gev_of y1 e) as [|z [|? ?]] eqn:Eg; cbn [length] in Hl; [| |lia].
  - cbn [app] in E. destruct (IH _ _ _ _ E) as (t1 & e' & t2 & -> & E1 & E2). exists (e :: t1), e', t2. split; [reflexivity|].
    split; [cbn [gevs]; rewrite Eg; exact E1|exact E2].
  - destruct l1 as [|z' l1]; cbn [app] in E; injection E as -> E.
    + exists [], e, t. split; [reflexivity|]. split; [reflexivity|exact Eg].
    + destruct (IH _ _ _ _ E) as (t1 & e' & t2 & -> & E1 & E2). exists (e :: t1), e', t2. split; [reflexivity|].
      split; [cbn [gevs]; rewrite Eg; cbn [app]; rewrite E1; reflexivity|exact E2].
Qed.
Lemma c92_quorum p q : get_proposal (y_board y) id = Ok p -> pr_quorum p = Some q ->
  exists t1 t2 t3, tr = t1 ++ t2 ++ t3 /\
    q = get_total_voting_power (w_mv (y_world (yrun y0 t1))) * m_floor (y_board (yrun y0 (t1 ++ t2))) / 10000.
Proof.
  destruct (deployed_linked D y0 tr H0 Ht) as (a & b & HL & _ & _). intros Hp Hq.
  change (y_board y) with (g_m (gov_of y)) in Hp. unfold y in Hp. rewrite yrun_gov in Hp.
  destruct (c65_quorum a b _ _ id p q HL Hp Hq) as (l1 & c & l2 & i & ts & alt & l3 & j & tb & l4 & E & _ & Eq).
  set (P := l1 ++ GCall c (StartVoting id) :: l2) in *.
  assert (E1 : gevs y0 tr = (P ++ GQuery i ts false alt :: l3) ++ GBack j tb :: l4) by (rewrite E; unfold P; rewrite <- !app_assoc; reflexivity).
  destruct (gevs_split _ _ _ _ _ E1) as (u & e & t3 & Et & Eu & _).
  destruct (gevs_split _ _ _ _ _ Eu) as (t1 & e' & t2 & Et1 & Eu1 & _).
  exists t1, (e' :: t2), (e :: t3). split; [rewrite Et, Et1, <- app_assoc; reflexivity|].
  rewrite Eq. f_equal. f_equal.
  - rewrite <- Eu1, <- yrun_gov. reflexivity.
  - rewrite <- Et1. change (y_board (yrun y0 u)) with (g_m (gov_of (yrun y0 u))). rewrite yrun_gov, Eu.
    unfold P. rewrite <- app_assoc. reflexivity.
Qed.
Lemma c92_accepted now : one_at_a_time y0 tr -> get_proposal_state now (y_board y) id = Ok StAccepted ->
  exists t1 t2 t3, tr = t1 ++ t2 ++ t3 /\
    get_total_voting_power (w_mv (y_world (yrun y0 t1))) * m_floor (y_board (yrun y0 (t1 ++ t2))) / 10000 <= 60 * 10 ^ 18 * treasury y.
Proof.
  intros H1 HS. unfold get_proposal_state in HS. apply bind_Ok in HS as (p & Hp & HS).
  destruct (pr_executed p); [discriminate|]. destruct (pr_canceled p); [discriminate|]. destruct (pr_draft p); [discriminate|].
  apply bind_Ok in HS as (on & _ & HS). destruct on; [discriminate|]. destruct (is_active now p); [discriminate|].
  apply bind_Ok in HS as (qr & HQ & HS). destruct qr; [|discriminate].
  unfold is_quorum_reached in HQ. apply bind_Ok in HQ as (p' & Hp' & HQ). assert (p' = p) as -> by congruence.
  apply bind_Ok in HQ as (q & Eq & HQ). apply expect_Ok in Eq. apply bind_Ok in HQ as (t & Et & HQ). apply add128_Ok in Et as [-> _].
  injection HQ as HQ. apply N.leb_le in HQ.
  destruct (c92_quorum p q Hp Eq) as (t1 & t2 & t3 & E & ->). exists t1, t2, t3. split; [exact E|].
  etransitivity; [exact HQ|]. etransitivity; [|apply (proj1 (c92_treasury H1))]. unfold all_votes, tally, get_proposal_votes. lia.
Qed.
End C92.
