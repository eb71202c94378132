(** MVFits4.v -- C76: whole histories; what is shown determines what happens. *)

From Verif Require Export MVFits3.

Lemma locks_fit_same w l L M : same L M -> locks_fit w l L -> locks_fit w l M.
Proof. intros H. same_inv H. apply locks_fit_ext; [exact S3|]. apply (S2 w). Qed.

Lemma fits_same c o L M : same L M -> fits c L o -> fits c M o.
Proof.
  intros H. pose proof (settings_eq _ _ H) as (F1 & F2 & F3 & F4 & F5 & F6 & F7 & F8 & F9 & F10 & F11 & F12 & F13).
  pose proof H as K. same_inv K.
  assert (A2 : forall w, a_bal (l_acct L w) = a_bal (l_acct M w)) by (intros w; apply (S2 w)).
  assert (A3 : forall w, a_pos (l_acct L w) = a_pos (l_acct M w)) by (intros w; apply (S2 w)).
  assert (B1 : forall l n d, lock_fits L l n d -> lock_fits M l n d).
  { intros l n d. unfold lock_fits. rewrite S3. exact (fun h => h). }
  assert (B6 : forall ks, a_bal (collect_acct (now_ms c) ks (l_acct L (c_pred c))) = a_bal (collect_acct (now_ms c) ks (l_acct M (c_pred c)))).
  { intros ks. apply (sa_blind _ _ _ (bl_collect (now_ms c) ks) (S2 (c_pred c))). }
  assert (B7 : forall k p x y, a_pos (relock_part (now_ms c) k p x y (l_acct L (c_pred c))) = a_pos (relock_part (now_ms c) k p x y (l_acct M (c_pred c)))).
  { intros k p x y. apply (sa_blind _ _ _ (bl_relock_part (now_ms c) k p x y) (S2 (c_pred c))). }
  destruct o; cbn [fits]; cbv zeta; try (rewrite ?A2, ?A3, ?B6, ?S3, ?S9; exact (fun h => h)).
  - rewrite A3. apply B1.
  - rewrite A3. intros HH p Hp. destruct (HH p Hp) as [H1 H2]. split; [exact H1|]. apply B1. exact H2.
  - rewrite A3, A2. intros HH p t Hp Ht. destruct (HH p t Hp Ht) as (H1 & H2 & H3). split; [exact H1|]. split; [|exact H3].
    rewrite <- B7. apply B1. exact H2.
  - rewrite A3. apply B1.
  - apply locks_fit_same. exact H.
  - destruct (after_prefix "for-claims:" msg).
    + rewrite F4, S6, S7, S9, S10. exact (fun h => h).
    + intros HH w days Hl. rewrite <- A3. apply B1. exact (HH w days Hl).
Qed.

Lemma accepted_same c o L M : same L M -> accepted c L o -> accepted c M o.
Proof. intros H [H1 H2]. split; [eapply enabled_same|eapply fits_same]; eassumption. Qed.

(** the token transfers ordered by a list of calls *)
Fixpoint ordered (s : state) (tr : list call) : list eff :=
  match tr with
  | [] => []
  | x :: r => match exec x.1 s x.2 with Ok (_, e) => e | Panic _ => [] end ++ ordered (step s x) r
  end.

Lemma cf_app tr tr2 : collision_free (tr ++ tr2) -> collision_free tr.
Proof.
  intros H p q Hp Hq. apply H; unfold vote_targets in *; rewrite omap_app; apply in_app_iff; auto.
Qed.
Lemma nz_app tr tr2 : no_zero_votes (tr ++ tr2) -> no_zero_votes tr.
Proof. intros H. apply Forall_app in H as [H _]. exact H. Qed.

Lemma mirror_same w l gone L M : same L M -> same (mirror_to w l gone L) (mirror_to w l gone M).
Proof.
  intros H. pose proof H as K. same_inv K. pose proof (S2 w) as (A1 & A2 & A3 & A4 & A5 & A6).
  assert (E : gone_power (l_acct L w) gone = gone_power (l_acct M w) gone) by (unfold gone_power; apply sum_by_ext; intros x _; apply A6).
  unfold mirror_to, same. split; [exact S1|]. split.
  { intros z. cbn [l_acct set]. destruct (decide (z = w)) as [->|Hz]; [|rewrite !put_ne by exact Hz; apply S2].
    rewrite !put_eq. unfold same_acct. cbn [a_voter a_bal a_pos a_free a_used a_votes]. rewrite A2, A5, E.
    split; [reflexivity|]. split; [reflexivity|]. split; [reflexivity|]. split; [reflexivity|]. split; [reflexivity|].
    intros x y. rewrite A6. reflexivity. }
  split; [cbn [l_power set]; rewrite S3, A4, A5; reflexivity|].
  split; [intros x y; cbn [l_tally set]; rewrite S4, A6; reflexivity|].
  repeat (split; [assumption|]). assumption.
Qed.
Lemma must_go_same a b n gone : same_acct a b -> must_go a n gone -> must_go b n gone.
Proof.
  intros (A1 & A2 & A3 & A4 & A5 & A6) (H1 & H2 & H3 & H4).
  assert (E : forall g, gone_power a g = gone_power b g) by (intros g; unfold gone_power; apply sum_by_ext; intros x _; apply A6).
  split; [exact H1|]. split; [intros x Hx; rewrite <- A6; apply H2, Hx|]. split; [|rewrite <- A5, <- E; exact H4].
  intros r x Hr. rewrite <- A5, <- E. apply (H3 r x Hr).
Qed.
Lemma becomes_same c o L M K : same L M -> becomes c L o K -> becomes c M o K.
Proof.
  intros H. destruct o; cbn [becomes]; try (intros HK; eapply same_trans; [exact HK|]; apply next_same; exact H).
  intros (gone & H1 & H2). exists gone. split; [eapply must_go_same; [|exact H1]; apply H|].
  eapply same_trans; [exact H2|]. apply mirror_same. exact H.
Qed.
Lemma follows_same L M x K e : same L M -> follows L x K e -> follows M x K e.
Proof.
  intros H [(H1 & H2 & H3)|(H1 & H2 & H3)]; [left|right].
  - split; [eapply accepted_same; eassumption|]. split; [eapply becomes_same; eassumption|]. rewrite H3. apply pays_same. exact H.
  - split; [intros Ha; apply H1; eapply accepted_same; [apply same_sym; exact H|exact Ha]|]. split; [eapply same_trans; eassumption|exact H3].
Qed.
Lemma leads_same L M tr K e : same L M -> leads L tr K e -> leads M tr K e.
Proof.
  intros H. destruct tr as [|x r]; cbn [leads].
  - intros [H1 H2]. split; [eapply same_trans; eassumption|exact H2].
  - intros (K1 & e1 & e2 & H1 & H2 & H3). exists K1, e1, e2. split; [eapply follows_same; eassumption|auto].
Qed.

Lemma leads_run a s0 tr : forall pre,
  mv_new a = Ok s0 -> collision_free (pre ++ tr) -> no_zero_votes (pre ++ tr) -> Forall (fun x : call => named_once x.2) tr ->
  leads (observe (run s0 pre)) tr (observe (run s0 (pre ++ tr))) (ordered (run s0 pre) tr).
Proof.
  induction tr as [|[c o] tr IH]; intros pre H0 Hc Hz Hn.
  { rewrite app_nil_r. split; [apply same_refl|reflexivity]. }
  apply Forall_cons in Hn as [Hno Hn]. cbn [snd] in Hno. change ((c, o) :: tr) with ([(c, o)] ++ tr) in Hc, Hz |- * at 2.
  rewrite app_assoc in Hc, Hz. rewrite (app_assoc pre). cbn [leads ordered fst snd app].
  specialize (IH (pre ++ [(c, o)]) H0 Hc Hz Hn). apply cf_app in Hc. apply nz_app in Hz.
  assert (Er : run s0 (pre ++ [(c, o)]) = step (run s0 pre) (c, o)) by (rewrite run_app; reflexivity).
  rewrite Er in IH. eexists (observe (step (run s0 pre) (c, o))), _, _. split; [|split; [exact IH|reflexivity]].
  pose proof (c76 a s0 pre c o H0 Hc Hz Hno) as Hiff. cbv zeta in Hiff. destruct (c72 a s0 pre c o H0 Hc Hz Hno) as [A _].
  unfold step. cbn [fst snd]. destruct (exec c (run s0 pre) o) as [[s' e]|m] eqn:Ex.
  - left. cbn [fst snd]. destruct (A s' e eq_refl) as (_ & Hb & Hp). split; [apply Hiff; eauto|]. split; [exact Hb|exact Hp].
  - right. cbn [fst snd]. split; [|split; [apply same_refl|reflexivity]]. intros Ha. apply Hiff in Ha as (s' & e & Ha). discriminate Ha.
Qed.

Lemma c76_history a s0 tr :
  mv_new a = Ok s0 -> collision_free tr -> no_zero_votes tr -> Forall (fun x : call => named_once x.2) tr ->
  leads (new_ledger a) tr (observe (run s0 tr)) (ordered s0 tr).
Proof.
  intros H0 Hc Hz Hn. eapply leads_same; [apply (proj2 (c72_init a) s0 H0)|]. apply (leads_run a s0 tr []); assumption.
Qed.

Lemma c76_determined tr : Forall (fun x : call => match x.2 with MirrorLps _ _ => False | _ => True end) tr ->
  forall L M, same L M -> forall L' M' e f, leads L tr L' e -> leads M tr M' f -> same L' M' /\ e = f.
Proof.
  induction tr as [|[c o] tr IH]; intros Hm L M H L' M' e f H1 H2.
  { destruct H1 as [H1 ->]. destruct H2 as [H2 ->]. split; [|reflexivity]. eapply same_trans; [exact H1|]. eapply same_trans; [exact H|].
    apply same_sym. exact H2. }
  apply Forall_cons in Hm as [Ho Hm]. cbn [leads] in H1, H2. destruct H1 as (K1 & e1 & e2 & F1 & R1 & ->). destruct H2 as (K2 & f1 & f2 & F2 & R2 & ->).
  assert (HK : same K1 K2 /\ e1 = f1).
  { apply (follows_same _ M) in F1; [|exact H]. destruct F1 as [(A1 & B1 & ->)|(A1 & B1 & ->)], F2 as [(A2 & B2 & ->)|(A2 & B2 & ->)];
      [|contradiction|contradiction|].
    - split; [|reflexivity]. cbn [fst snd] in *.
      assert (B1' : same K1 (next c M o)) by (destruct o; try exact B1; contradiction).
      assert (B2' : same K2 (next c M o)) by (destruct o; try exact B2; contradiction).
      eapply same_trans; [exact B1'|]. apply same_sym. exact B2'.
    - split; [|reflexivity]. eapply same_trans; [exact B1|]. apply same_sym. exact B2. }
  destruct HK as [HK ->]. destruct (IH Hm _ _ HK _ _ _ _ R1 R2) as [HL ->]. auto.
Qed.

(** two contracts showing the same ledger *)
Lemma c76_views a1 s1 tr1 a2 s2 tr2 c o :
  mv_new a1 = Ok s1 -> mv_new a2 = Ok s2 ->
  collision_free (tr1 ++ [(c, o)]) -> no_zero_votes (tr1 ++ [(c, o)]) ->
  collision_free (tr2 ++ [(c, o)]) -> no_zero_votes (tr2 ++ [(c, o)]) -> named_once o ->
  same (observe (run s1 tr1)) (observe (run s2 tr2)) ->
  forall s1' e1, exec c (run s1 tr1) o = Ok (s1', e1) ->
    exists s2' e2, exec c (run s2 tr2) o = Ok (s2', e2) /\ e2 = e1 /\
      ((forall ext l, o <> MirrorLps ext l) -> same (observe s2') (observe s1')).
Proof.
  intros N1 N2 C1 Z1 C2 Z2 Hno Hs s1' e1 H.
  destruct (c72_views a1 s1 tr1 a2 s2 tr2 c o N1 N2 C1 Z1 C2 Z2 Hno Hs s1' e1 H) as [HH|(m & HH & _)]; [exact HH|]. exfalso.
  assert (Ha : accepted c (observe (run s1 tr1)) o) by (apply (c76 a1 s1 tr1 c o N1 C1 Z1 Hno); eauto).
  apply (accepted_same _ _ _ _ Hs) in Ha. apply (c76 a2 s2 tr2 c o N2 C2 Z2 Hno) in Ha as (s' & e & E). rewrite HH in E. discriminate E.
Qed.
