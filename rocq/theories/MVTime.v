(** MVTime.v -- no sequence of calls takes tokens out before their unbonding period (C08). *)

From Verif Require Export MVMoney.

(** earliest time position [p] can leave, seen at time [now] *)
Definition exitp (now : N) (p : lpos) : N :=
  match lp_unl p with Some t => t + days_to_millis (lp_days p) | None => now + days_to_millis (lp_days p) end.
Definition early (T now : N) (p : lpos) : N := if exitp now p <=? T then lp_amount p else 0.
Definition avail_by (T now : N) (v : voter) : N := v_bal v + sum_by (early T now) (v_lps v).
(** started in the past *)
Definition past (now : N) (p : lpos) : Prop := match lp_unl p with Some t => t <= now | None => True end.
Definition pastv (now : N) (v : voter) : Prop := Forall (past now) (v_lps v).
Definition ripe (T now amount days : N) : N := if now + days_to_millis days <=? T then amount else 0.

Lemma early_app T now l p : sum_by (early T now) (l ++ [p]) = sum_by (early T now) l + early T now p.
Proof. rewrite sum_by_app, sum_by_cons, sum_by_nil. lia. Qed.

Lemma early_mono T now now' p : now <= now' -> early T now' p <= early T now p.
Proof.
  intros H. unfold early, exitp. destruct (lp_unl p); [lia|].
  destruct (N.leb_spec (now' + days_to_millis (lp_days p)) T), (N.leb_spec (now + days_to_millis (lp_days p)) T); lia.
Qed.
Lemma avail_mono T now now' v : now <= now' -> avail_by T now' v <= avail_by T now v.
Proof. intros H. unfold avail_by. apply N.add_le_mono_l, sum_by_le. intros p _. apply early_mono; exact H. Qed.
Lemma past_mono now now' v : now <= now' -> pastv now v -> pastv now' v.
Proof. intros H HF. eapply Forall_impl; [exact HF|]. unfold past. intros p. destruct (lp_unl p); [lia|auto]. Qed.

Lemma dep1_avail T now s v amount days v' :
  dep1 s v amount days v' -> avail_by T now v' = avail_by T now v + ripe T now amount days.
Proof.
  intros (vp & l' & _ & _ & Hd & _ & ->). unfold avail_by. cbn [v_bal v_lps].
  destruct Hd as [(i & p & Hl & Hdy & Hu & _ & _ & ->)|(_ & _ & ->)].
  - pose proof (sum_by_insert (early T now) _ _ _ (mkLpos (lp_amount p + amount) days (lp_vp p + vp) None) Hl) as H.
    unfold early at 2 4, exitp in H. cbn [lp_amount lp_unl lp_days] in H. rewrite Hu, Hdy in H.
    unfold ripe. destruct (now + days_to_millis days <=? T); lia.
  - rewrite early_app. unfold early at 2, exitp, ripe. cbn [lp_amount lp_unl lp_days]. lia.
Qed.
Lemma dep1_past now s v amount days v' : dep1 s v amount days v' -> pastv now v -> pastv now v'.
Proof.
  intros (vp & l' & _ & _ & Hd & _ & ->) H. unfold pastv in *. cbn [v_lps].
  destruct Hd as [(i & p & Hl & Hdy & Hu & _ & _ & ->)|(_ & _ & ->)].
  - apply Forall_insert; [exact H|exact I].
  - apply Forall_app; split; [exact H|]. repeat constructor.
Qed.

Lemma deps_avail T now s v l v' :
  deps s v l v' -> avail_by T now v' = avail_by T now v + sum_by (fun lp => ripe T now (lp.1 / E18) lp.2) l.
Proof.
  induction 1 as [v|v v1 v' lp l H1 H2 IH]; [rewrite sum_by_nil; lia|].
  rewrite sum_by_cons, IH, (dep1_avail T now _ _ _ _ _ H1). lia.
Qed.
Lemma deps_past now s v l v' : deps s v l v' -> pastv now v -> pastv now v'.
Proof. induction 1 as [v|v v1 v' lp l H1 H2 IH]; [auto|]. intros H. apply IH. eapply dep1_past; eauto. Qed.

Lemma clears_avail T now v v' : now <= T -> clears now v v' -> avail_by T now v' = avail_by T now v.
Proof.
  intros HT. induction 1 as [v|v v1 i p Hc IH Hl Hu Hb]; [reflexivity|]. rewrite <- IH. unfold avail_by. cbn [v_bal v_lps].
  pose proof (sum_by_swap_remove (early T now) _ _ _ Hl) as H.
  assert (early T now p = lp_amount p) as E; [|lia].
  unfold early, exitp. unfold is_unlocked in Hu. destruct (lp_unl p) as [t|]; [|discriminate].
  apply N.ltb_lt in Hu. destruct (N.leb_spec (t + days_to_millis (lp_days p)) T); [reflexivity|lia].
Qed.
Lemma clears_past B now v v' : clears now v v' -> pastv B v -> pastv B v'.
Proof.
  induction 1 as [v|v v1 i p Hc IH Hl Hu Hb]; [auto|]. intros H. apply IH in H. unfold pastv. cbn [v_lps].
  apply Forall_swap_remove. exact H.
Qed.

Lemma zip_avail T now l : forall vps, length vps = length l ->
  sum_by (early T now) (zip_with (fun lp vp => mkLpos lp.2 lp.1 vp None) l vps)
  = sum_by (fun lp => ripe T now lp.2 lp.1) l.
Proof.
  induction l as [|lp l IH]; intros [|vp vps] H; try discriminate; [reflexivity|].
  cbn [zip_with]. rewrite !sum_by_cons, IH by (injection H; auto). reflexivity.
Qed.
Lemma zip_past now l : forall vps : list N,
  Forall (past now) (zip_with (fun (lp : N * N) vp => mkLpos lp.2 lp.1 vp None) l vps).
Proof. induction l as [|lp l IH]; intros [|vp vps]; constructor; [exact I|apply IH]. Qed.

Lemma matured_map {A} T now (vid : string) (f : A -> N) (g : A -> N) (l : list A) :
  sum_by (fun '(v, amount, d) => if decide (v = vid) then if now + d * 86400000 <=? T then amount else 0 else 0)
    (map (fun a => (vid, f a, g a)) l)
  = sum_by (fun a => ripe T now (f a) (g a)) l.
Proof.
  induction l as [|a l IH]; [reflexivity|]. cbn [map]. rewrite !sum_by_cons, IH.
  rewrite decide_True by reflexivity. reflexivity.
Qed.

Lemma bond_credits c s sender amount msg vid days :
  bond_for c s sender msg vid days -> msg_is_for_claims msg = Ok false ->
  credits s (c, FtOnTransfer sender amount msg) = [(vid, amount, days)].
Proof.
  intros Hb Hf. apply for_claims_false in Hf. unfold credits. cbn [fst snd]. rewrite Hf.
  destruct Hb as [(E & ->)|(E & Ej & _)]; rewrite E; [reflexivity|]. rewrite Ej. reflexivity.
Qed.

Lemma matured_one T s c o e vid amount days :
  credits s (c, o) = [(vid, amount, days)] -> matured vid T s (c, o) e = ripe T (now_ms c) amount days.
Proof.
  intros E. unfold matured. rewrite E, sum_by_cons, sum_by_nil. rewrite decide_True by reflexivity.
  unfold ripe, days_to_millis. cbn [fst]. lia.
Qed.
Lemma matured_nil vid T s c o e : credits s (c, o) = [] -> matured vid T s (c, o) e = 0.
Proof. intros E. unfold matured. rewrite E. apply sum_by_nil. Qed.

Lemma vchg_avail T c s o s' e vid v v' :
  now_ms c <= T -> pastv (now_ms c) v -> vchg c s o s' e vid v v' ->
  pastv (now_ms c) v' /\
  withdrawn vid s (c, o) e + avail_by T (now_ms c) v'
  <= avail_by T (now_ms c) v + matured vid T s (c, o) e + given_back vid s (c, o) e /\
  (forall w, w <> vid -> withdrawn w s (c, o) e = 0).
Proof.
  intros HT Hp H. destruct H; set (now := now_ms c) in *.
  - (* bond *)
    match goal with H : dep1 _ _ _ _ _ |- _ => rename H into Hd end.
    split; [eapply dep1_past; eauto|]. split; [|intros; reflexivity].
    unfold withdrawn, given_back. cbn [snd]. rewrite sum_by_nil, (dep1_avail T now _ _ _ _ _ Hd).
    erewrite matured_one by (eapply bond_credits; eassumption). fold now. lia.
  - (* claim *)
    match goal with H : dep1 _ _ _ _ _ |- _ => rename H into Hd end.
    split; [eapply dep1_past; eauto|]. split; [|intros; reflexivity].
    unfold withdrawn, given_back. cbn [snd]. rewrite sum_by_nil, (dep1_avail T now _ _ _ _ _ Hd).
    erewrite matured_one by reflexivity. fold now. lia.
  - (* migrate *)
    match goal with H : deps _ _ _ _ |- _ => rename H into Hd end.
    split; [eapply deps_past; eauto|]. split; [|intros; reflexivity].
    unfold withdrawn, given_back. cbn [snd]. rewrite sum_by_nil, (deps_avail T now _ _ _ _ Hd).
    unfold matured, credits. cbn [fst snd]. change (now_ms c) with now. rewrite (matured_map T now vid (fun lp => lp.1 / 10 ^ 18) snd).
    fold now. change (10 ^ 18) with E18. lia.
  - (* unlock *)
    match goal with H : v_lps v !! i = Some p |- _ => rename H into Hl end.
    match goal with H : _ \/ _ |- _ => rename H into Ho end.
    assert (Hpp : past now p) by (eapply Forall_lookup_1 in Hp; eauto).
    split. { apply Forall_insert; [exact Hp|]. unfold past. cbn [lp_unl]. lia. }
    split; [|intros; reflexivity].
    rewrite matured_nil by (destruct Ho as [->| ->]; reflexivity).
    assert (given_back (c_pred c) s (c, o) [] = 0) as -> by (destruct Ho as [->| ->]; reflexivity).
    unfold withdrawn. rewrite sum_by_nil. unfold avail_by. cbn [v_bal v_lps].
    pose proof (sum_by_insert (early T now) _ _ _ (mkLpos (lp_amount p) (lp_days p) (lp_vp p) (Some now)) Hl) as K.
    assert (early T now (mkLpos (lp_amount p) (lp_days p) (lp_vp p) (Some now)) <= early T now p); [|lia].
    unfold early, exitp, past in *. cbn [lp_unl lp_days lp_amount]. destruct (lp_unl p) as [t|]; [|lia].
    destruct (N.leb_spec (now + days_to_millis (lp_days p)) T), (N.leb_spec (t + days_to_millis (lp_days p)) T); lia.
  - (* partial unlock *)
    match goal with H : v_lps v !! i = Some p |- _ => rename H into Hl end.
    assert (Hpp : past now p) by (eapply Forall_lookup_1 in Hp; eauto).
    split. { apply Forall_app; split; [apply Forall_insert; [exact Hp|exact Hpp]|].
             repeat constructor. unfold past. cbn [lp_unl]. lia. }
    split; [|intros; reflexivity].
    rewrite matured_nil by reflexivity. unfold withdrawn, given_back. cbn [snd]. rewrite sum_by_nil.
    unfold avail_by. cbn [v_bal v_lps]. rewrite early_app.
    pose proof (sum_by_insert (early T now) _ _ _ (mkLpos (lp_amount p - amount) (lp_days p) (lp_vp p - vp) (lp_unl p)) Hl) as K.
    assert (early T now (mkLpos (lp_amount p - amount) (lp_days p) (lp_vp p - vp) (lp_unl p))
            + early T now (mkLpos amount (lp_days p) vp (Some now)) <= early T now p); [|lia].
    unfold early, exitp, past in *. cbn [lp_unl lp_days lp_amount]. destruct (lp_unl p) as [t|].
    + destruct (N.leb_spec (now + days_to_millis (lp_days p)) T), (N.leb_spec (t + days_to_millis (lp_days p)) T); lia.
    + destruct (N.leb_spec (now + days_to_millis (lp_days p)) T); lia.
  - (* extend *)
    match goal with H : v_lps v !! i = Some p |- _ => rename H into Hl end.
    match goal with H : lp_unl p = None |- _ => rename H into Hu end.
    match goal with H : lp_days p < days |- _ => rename H into Hdays end.
    split. { apply Forall_insert; [exact Hp|exact I]. }
    split; [|intros; reflexivity].
    rewrite matured_nil by reflexivity. unfold withdrawn, given_back. cbn [snd]. rewrite sum_by_nil.
    unfold avail_by. cbn [v_bal v_lps].
    pose proof (sum_by_insert (early T now) _ _ _ (mkLpos (lp_amount p) days nvp None) Hl) as K.
    assert (early T now (mkLpos (lp_amount p) days nvp None) <= early T now p); [|lia].
    unfold early, exitp, days_to_millis. cbn [lp_unl lp_days lp_amount]. rewrite Hu.
    destruct (N.leb_spec (now + days * 86400000) T), (N.leb_spec (now + lp_days p * 86400000) T); lia.
  - (* relock *)
    match goal with H : v_lps v !! i = Some p |- _ => rename H into Hl end.
    match goal with H : lp_unl p = Some _ |- _ => rename H into Hu end.
    match goal with H : dep1 _ _ _ _ _ |- _ => rename H into Hd end.
    match goal with H : now < _ -> _ |- _ => rename H into Hlater end.
    split. { eapply dep1_past; [exact Hd|]. unfold pastv. cbn [v_lps]. apply Forall_swap_remove. exact Hp. }
    split; [|intros; reflexivity].
    rewrite matured_nil by reflexivity. unfold withdrawn, given_back. cbn [snd]. rewrite sum_by_nil.
    rewrite (dep1_avail T now _ _ _ _ _ Hd). unfold avail_by. cbn [v_bal v_lps].
    pose proof (sum_by_swap_remove (early T now) _ _ _ Hl) as K.
    assert (ripe T now (lp_amount p + afb) days <= early T now p + afb); [|lia].
    unfold early, exitp, ripe. rewrite Hu.
    destruct (N.leb_spec (now + days_to_millis days) T), (N.leb_spec (started + days_to_millis (lp_days p)) T); try lia.
  - (* relock part of an unlocking position *)
    match goal with H : v_lps v !! i = Some p |- _ => rename H into Hl end.
    match goal with H : lp_unl p = Some _ |- _ => rename H into Hu end.
    match goal with H : dep1 _ _ _ _ _ |- _ => rename H into Hd end.
    assert (Hpp : past now p) by (eapply Forall_lookup_1 in Hp; eauto).
    split. { eapply dep1_past; [exact Hd|]. unfold pastv. cbn [v_lps]. apply Forall_insert; [exact Hp|exact Hpp]. }
    split; [|intros; reflexivity].
    rewrite matured_nil by reflexivity. unfold withdrawn, given_back. cbn [snd]. rewrite sum_by_nil.
    rewrite (dep1_avail T now _ _ _ _ _ Hd). unfold avail_by. cbn [v_bal v_lps].
    pose proof (sum_by_insert (early T now) _ _ _ (mkLpos (lp_amount p - afp) (lp_days p) nvp (lp_unl p)) Hl) as K.
    assert (early T now (mkLpos (lp_amount p - afp) (lp_days p) nvp (lp_unl p)) + ripe T now (afb + afp) days
            <= early T now p + afb); [|lia].
    unfold early, exitp, ripe. cbn [lp_unl lp_days lp_amount]. rewrite Hu.
    destruct (N.leb_spec (now + days_to_millis days) T), (N.leb_spec (started + days_to_millis (lp_days p)) T); lia.
  - (* relock part of an unlocked position *)
    match goal with H : v_lps v !! i = Some p |- _ => rename H into Hl end.
    match goal with H : lp_unl p = Some _ |- _ => rename H into Hu end.
    match goal with H : dep1 _ _ _ _ _ |- _ => rename H into Hd end.
    split. { eapply dep1_past; [exact Hd|]. unfold pastv. cbn [v_lps]. apply Forall_swap_remove. exact Hp. }
    split; [|intros; reflexivity].
    rewrite matured_nil by reflexivity. unfold withdrawn, given_back. cbn [snd]. rewrite sum_by_nil.
    rewrite (dep1_avail T now _ _ _ _ _ Hd). unfold avail_by. cbn [v_bal v_lps].
    pose proof (sum_by_swap_remove (early T now) _ _ _ Hl) as K.
    assert (early T now p = lp_amount p) as E.
    { unfold early, exitp. rewrite Hu. destruct (N.leb_spec (started + days_to_millis (lp_days p)) T); [reflexivity|lia]. }
    assert (ripe T now (afb + afp) days <= afb + afp) by (unfold ripe; destruct (_ <=? _); lia).
    lia.
  - (* relock from balance *)
    match goal with H : dep1 _ _ _ _ _ |- _ => rename H into Hd end.
    split. { eapply dep1_past; [exact Hd|exact Hp]. }
    split; [|intros; reflexivity].
    rewrite matured_nil by reflexivity. unfold withdrawn, given_back. cbn [snd]. rewrite sum_by_nil.
    rewrite (dep1_avail T now _ _ _ _ _ Hd). unfold avail_by. cbn [v_bal v_lps].
    assert (ripe T now amount days <= amount) by (unfold ripe; destruct (_ <=? _); lia).
    lia.
  - (* clear *)
    match goal with H : clears _ _ _ |- _ => rename H into Hc end.
    split; [eapply clears_past; eauto|]. split; [|intros; reflexivity].
    rewrite matured_nil by reflexivity. unfold withdrawn, given_back. cbn [snd]. rewrite sum_by_nil.
    rewrite (clears_avail T now _ _ HT Hc). lia.
  - (* withdraw *)
    match goal with H : clears _ _ _ |- _ => rename H into Hc end.
    match goal with H : _ \/ _ |- _ => rename H into Ho end.
    split. { apply (clears_past _ _ _ _ Hc) in Hp. exact Hp. }
    split.
    + assert (credits s (c, o) = []) as Ec by (destruct Ho as [(l & a & ->)| ->]; reflexivity).
      rewrite matured_nil by exact Ec.
      unfold withdrawn. rewrite sum_by_cons, sum_by_nil, decide_True by reflexivity.
      rewrite <- (clears_avail T now _ _ HT Hc). unfold avail_by. cbn [v_bal v_lps]. lia.
    + intros w Hw. unfold withdrawn. rewrite sum_by_cons, sum_by_nil, decide_False by congruence. reflexivity.
  - (* restore *)
    split; [exact Hp|]. split; [|intros; reflexivity].
    rewrite matured_nil by reflexivity. unfold withdrawn, given_back. cbn [snd]. rewrite sum_by_nil.
    rewrite decide_True by reflexivity. unfold avail_by. cbn [v_bal v_lps]. lia.
  - (* votes *)
    match goal with H : same_lps _ _ |- _ => destruct H as [Hb Hl] end.
    split; [unfold pastv; rewrite Hl; exact Hp|]. split; [|intros; reflexivity].
    unfold withdrawn. rewrite sum_by_nil. unfold avail_by. rewrite Hb, Hl. lia.
  - (* mirror *)
    match goal with H : v_bal v' = _ |- _ => rename H into Hb end.
    match goal with H : v_lps v' = _ |- _ => rename H into Hl end.
    split; [unfold pastv; rewrite Hl; apply zip_past|]. split; [|intros; reflexivity].
    unfold withdrawn, given_back. cbn [snd]. rewrite sum_by_nil. unfold avail_by. rewrite Hb, Hl, zip_avail by assumption.
    unfold matured, credits. cbn [fst snd].
    change (ext +:+ ".evmp.near") with (pseudo_near_address ext).
    change (now_ms c) with now. rewrite (matured_map T now (pseudo_near_address ext) snd fst). fold now. lia.
Qed.

Lemma step_avail T vid x s s' e :
  now_ms x.1 <= T -> NoDup (voters s).*1 -> pastv (now_ms x.1) (get_voter s vid) -> exec x.1 s x.2 = Ok (s', e) ->
  NoDup (voters s').*1 /\ pastv (now_ms x.1) (get_voter s' vid) /\
  withdrawn vid s x e + avail_by T (now_ms x.1) (get_voter s' vid)
  <= avail_by T (now_ms x.1) (get_voter s vid) + matured vid T s x e + given_back vid s x e.
Proof.
  destruct x as [c o]. cbn [fst snd]. intros HT Hn Hp H. apply exec_cases in H as [_ [K|(u & v' & Hst & Hch)]].
  - destruct K as (E1 & _ & _ & _ & _ & He & _). assert (get_voter s' vid = get_voter s vid) as -> by (unfold get_voter; rewrite E1; reflexivity).
    rewrite E1. split; [exact Hn|]. split; [exact Hp|].
    assert (withdrawn vid s (c, o) e = 0) as ->; [|lia].
    apply sum_by_zero. intros [v a|? ? ? ?] Hin; [|reflexivity]. exfalso. eapply He. exact Hin.
  - destruct (store_get _ _ _ _ vid Hn Hst) as (Hn' & _ & Hoth & Hsame). split; [exact Hn'|].
    destruct (decide (vid = u)) as [->|Hne].
    + destruct (vchg_avail T _ _ _ _ _ _ _ _ HT Hp Hch) as (P1 & P2 & _).
      destruct Hsame as [->|(-> & Hb & Hl)]; [auto|]. split; [constructor|].
      unfold avail_by at 1 in P2. rewrite Hb, Hl in P2. unfold avail_by at 1. cbn [v_bal v_lps new_voter].
      rewrite sum_by_nil in *. lia.
    + rewrite Hoth by exact Hne. split; [exact Hp|].
      assert (withdrawn vid s (c, o) e = 0) as ->; [|lia].
      destruct Hch; try reflexivity.
      unfold withdrawn. rewrite sum_by_cons, sum_by_nil, decide_False by congruence. reflexivity.
Qed.

Lemma run_avail T vid tr : forall s t,
  timed tr -> Forall (fun x : call => t <= now_ms x.1 <= T) tr ->
  NoDup (voters s).*1 -> pastv t (get_voter s vid) ->
  run_sum (withdrawn vid) s tr
  <= avail_by T t (get_voter s vid) + run_sum (matured vid T) s tr + run_sum (given_back vid) s tr.
Proof.
  induction tr as [|x tr IH]; intros s t Ht Hf Hn Hp; cbn [run_sum]; [lia|].
  apply Forall_cons in Hf as [[Hx1 Hx2] Hf].
  assert (Ht' : timed tr) by (unfold timed in *; cbn [map] in Ht; inversion Ht; assumption).
  assert (Hf' : Forall (fun y : call => now_ms x.1 <= now_ms y.1 <= T) tr).
  { unfold timed in Ht. cbn [map] in Ht. apply Sorted_StronglySorted in Ht; [|intros ? ? ?; lia].
    apply StronglySorted_inv in Ht as [_ Hs]. apply Forall_forall. intros y Hy.
    rewrite List.Forall_forall in Hs. rewrite Forall_forall in Hf. specialize (Hf y Hy).
    assert (Hs' : c_ts x.1 <= c_ts y.1) by (apply Hs, (in_map (fun z : call => c_ts z.1)), elem_of_list_In; exact Hy).
    split; [|lia]. unfold now_ms. apply N.div_le_mono; [discriminate|exact Hs']. }
  destruct (exec x.1 s x.2) as [[s' e]|] eqn:E; [|apply IH; assumption].
  assert (Hp' : pastv (now_ms x.1) (get_voter s vid)) by (eapply past_mono; [|exact Hp]; lia).
  destruct (step_avail T vid x s s' e Hx2 Hn Hp' E) as (Hn' & Hp'' & Hle).
  specialize (IH s' (now_ms x.1) Ht' Hf' Hn' Hp''). pose proof (avail_mono T _ _ (get_voter s vid) Hx1). lia.
Qed.

Lemma c08 a s0 tr vid T :
  mv_new a = Ok s0 -> timed tr -> Forall (fun x : call => now_ms x.1 <= T) tr ->
  run_sum (withdrawn vid) s0 tr <= run_sum (matured vid T) s0 tr + run_sum (given_back vid) s0 tr.
Proof.
  intros H0 Ht Hf. apply init_zero in H0 as (_ & _ & _ & _ & _ & _ & Hv & _).
  assert (G : get_voter s0 vid = new_voter vid) by (unfold get_voter; rewrite Hv; reflexivity).
  pose proof (run_avail T vid tr s0 0 Ht) as H. rewrite G in H. change (avail_by T 0 (new_voter vid)) with 0 in H.
  rewrite N.add_0_l in H. apply H.
  - eapply Forall_impl; [exact Hf|]. cbn. lia.
  - rewrite Hv. constructor.
  - constructor.
Qed.

(** The sum of a start date and a period never overflows u64, so leaving the check out of
    [is_unlocking] and [is_unlocked] loses nothing. *)
Lemma vchg_past B c s o s' e vid v v' :
  now_ms c <= B -> vchg c s o s' e vid v v' -> pastv B v -> pastv B v'.
Proof.
  intros Hb. destruct 1; intros Ha; unfold pastv in *; cbn [v_lps] in *.
  - eapply dep1_past; eauto.
  - eapply dep1_past; eauto.
  - eapply deps_past; eauto.
  - apply Forall_insert; [exact Ha|]. exact Hb.
  - apply Forall_app. split.
    + apply Forall_insert; [exact Ha|].
      match goal with H : v_lps v !! _ = Some _ |- _ => exact (Forall_lookup_1 _ _ _ _ Ha H) end.
    + constructor; [|constructor]. exact Hb.
  - apply Forall_insert; [exact Ha|exact I].
  - eapply dep1_past; [eassumption|]. unfold pastv. cbn [v_lps]. apply Forall_swap_remove. exact Ha.
  - eapply dep1_past; [eassumption|]. unfold pastv. cbn [v_lps]. apply Forall_insert; [exact Ha|].
    match goal with H : v_lps v !! _ = Some _ |- _ => exact (Forall_lookup_1 _ _ _ _ Ha H) end.
  - eapply dep1_past; [eassumption|]. unfold pastv. cbn [v_lps]. apply Forall_swap_remove. exact Ha.
  - eapply dep1_past; [eassumption|]. exact Ha.
  - eapply clears_past; eauto.
  - match goal with H : clears _ _ _ |- _ => exact (clears_past _ _ _ _ H Ha) end.
  - exact Ha.
  - match goal with H : same_lps _ _ |- _ => destruct H as [_ ->] end. exact Ha.
  - match goal with H : v_lps v' = _ |- _ => rewrite H end. apply zip_past.
Qed.

Lemma date_add_no_overflow a s0 tr vid i p t :
  mv_new a = Ok s0 -> Forall (fun x : call => c_ts x.1 < 2 ^ 64) tr ->
  v_lps (get_voter (run s0 tr) vid) !! i = Some p -> lp_unl p = Some t ->
  t + days_to_millis (lp_days p) < 2 ^ 64.
Proof.
  intros H0 Hf Hl Hu. set (B := 18446744073710).
  destruct (allv_run (pastv B) a s0 tr) as [_ H]; [intros w; constructor| |exact H0|].
  - intros c s o s' e w v' Hin _ Hch Hp. eapply vchg_past; [|exact Hch|exact Hp].
    rewrite List.Forall_forall in Hf. specialize (Hf _ Hin). cbn [fst] in Hf. change (2 ^ 64) with 18446744073709551616 in Hf.
    unfold now_ms, B. apply N.div_le_upper_bound; [discriminate|]. lia.
  - pose proof (Forall_lookup_1 _ _ _ _ (H vid) Hl) as Hp. unfold past in Hp. rewrite Hu in Hp.
    pose proof (positions_3600 _ _ _ _ _ _ H0 Hl) as Hd. unfold days_to_millis, B in *.
    change (2 ^ 64) with 18446744073709551616. lia.
Qed.
